(** A run of ExecuteTrader is a story. *)
From Coq Require Import ZArith Bool List Lia String.
From Verif.Model Require Import Outcome Machine Types Account SideInput Indicators Eval.
From Verif.Spec Require Import SideInputSpec IndicatorSpec RunSpec.
From Verif.Proofs Require Import Base SideInputProofs.
Import ListNotations.

Section RunProofs.
  Context {M : machine}.

  Lemma last_update_snoc {S} (rows : list (row S)) r :
    last_update (rows ++ [r]) = match w_update r with Some u => Some u | None => last_update rows end.
  Proof.
    induction rows as [|x rows IH]; cbn.
    - destruct (w_update r); reflexivity.
    - rewrite IH. destruct (w_update r); [reflexivity|]. destruct (last_update rows); reflexivity.
  Qed.

  Definition att_account (a : account) (l : list (order * bool * account)) : account :=
    match rev l with [] => a | (_, _, a') :: _ => a' end.

  Lemma att_account_cons a o ok a1 l : att_account a ((o, ok, a1) :: l) = att_account a1 l.
  Proof.
    unfold att_account. cbn [rev]. destruct (rev l) as [|[[? ?] ?] l'] eqn:E; cbn; [|reflexivity].
    reflexivity.
  Qed.

  Lemma story_snoc cfg side te ticks rows t r :
    story cfg side te ticks rows -> w_tick r = t -> row_ok cfg side te rows r ->
    story cfg side te (ticks ++ [t]) (rows ++ [r]).
  Proof.
    intros [Hm Hok] Ht Hr. split.
    - rewrite map_app, Hm. cbn. rewrite Ht. reflexivity.
    - intros before r' after E.
      destruct (rev after) as [|x after'] eqn:Ea.
      + assert (after = []) as -> by (rewrite <- (rev_involutive after), Ea; reflexivity).
        apply app_inj_tail in E as [<- <-]. exact Hr.
      + assert (Hafter : after = rev after' ++ [x]) by (rewrite <- (rev_involutive after), Ea; reflexivity).
        subst after. rewrite app_comm_cons, app_assoc in E. apply app_inj_tail in E as [E _].
        apply (Hok before r' (rev after')). exact E.
  Qed.

  (** A story for an extended list of ticks restricts to a story of the shorter list. *)
  Lemma story_unsnoc cfg side te ticks t rows :
    story cfg side te (ticks ++ [t]) rows ->
    exists rows' r, rows = rows' ++ [r] /\ w_tick r = t /\ story cfg side te ticks rows' /\
                    row_ok cfg side te rows' r.
  Proof.
    intros [Hm Hok]. destruct (rev rows) as [|r rr] eqn:E.
    - assert (rows = []) as -> by (rewrite <- (rev_involutive rows), E; reflexivity).
      destruct ticks; discriminate.
    - assert (Hrows : rows = rev rr ++ [r]) by (rewrite <- (rev_involutive rows), E; reflexivity).
      subst rows. exists (rev rr), r. rewrite map_app in Hm. apply app_inj_tail in Hm as [Hm Ht].
      split; [reflexivity|]. split; [exact Ht|]. split; [split; [exact Hm|]|].
      + intros b x a Eb. apply (Hok b x (a ++ [r])). rewrite Eb, <- app_assoc. reflexivity.
      + apply (Hok (rev rr) r []). reflexivity.
  Qed.

  Section Fixed.
    Context (cfg : account_config) (hist : option (list side_record)) (side : option side_input)
            (fast : bool) (te : trader_emitter) (lg : logger) (has_logger : bool).

    Context (Hside : side_matches hist side).

    Definition logged (l : lg_state lg) {S} (show : S -> string) (lines : list (log_line S)) : lg_state lg :=
      if has_logger then write_lines lg show lines l else l.

    Lemma order_loop t os a n l a' n' l' :
      foldM (order_step cfg lg has_logger t) (a, n, l) os = Done (a', n', l') ->
      exists atts, map (fun x => fst (fst x)) atts = os /\ tried cfg t a atts /\
        a' = att_account a atts /\ n' = (n + Z.of_nat (List.length (executed atts)))%Z /\
        l' = logged l (te_show te)
               (map (fun x => OrderLine t (snd x) (fst (fst x))) (executed atts)).
    Proof.
      revert a n l. induction os as [|o os IH]; intros a n l H.
      - injection H as <- <- <-. exists []. cbn. repeat split; auto; try lia.
        unfold logged. destruct has_logger; reflexivity.
      - cbn [foldM] in H. apply bind_done in H as ([[a1 n1] l1] & H1 & H2).
        unfold order_step in H1. apply bind_done in H1 as ([ok a2] & Hex & H1).
        destruct (IH a1 n1 l1 H2) as (atts & Hm & Htr & -> & -> & ->).
        exists ((o, ok, a2) :: atts).
        assert (Ha1 : a1 = a2) by (destruct ok; injection H1; auto). subst a2.
        rewrite att_account_cons. cbn [map fst snd tried]. rewrite Hm.
        repeat split; auto.
        + destruct ok; injection H1 as <- <-; unfold executed; cbn [filter fst snd List.length]; lia.
        + destruct ok; injection H1 as <- <-; unfold logged, log_if, executed; cbn [filter fst snd map];
            destruct has_logger; reflexivity.
    Qed.

    Lemma order_loop_complete t atts a n l :
      tried cfg t a atts ->
      foldM (order_step cfg lg has_logger t) (a, n, l) (map (fun x => fst (fst x)) atts)
      = Done (att_account a atts, (n + Z.of_nat (List.length (executed atts)))%Z,
              logged l (te_show te) (map (fun x => OrderLine t (snd x) (fst (fst x))) (executed atts))).
    Proof.
      revert a n l. induction atts as [|[[o ok] a1] atts IH]; intros a n l H.
      - cbn. rewrite Z.add_0_r. unfold logged. destruct has_logger; reflexivity.
      - destruct H as [H1 H2]. cbn [map foldM fst snd].
        unfold order_step at 1. rewrite H1. cbn [bind]. rewrite att_account_cons.
        destruct ok; cbn [bind]; rewrite (IH _ _ _ H2); f_equal; f_equal; unfold executed; cbn [filter fst snd].
        + f_equal. cbn [List.length]. lia.
        + unfold logged, log_if. destruct has_logger; reflexivity.
    Qed.

    (** The side input part of the state. *)
    Definition side_inv (ticks : list ohlc_tick) (prev : Z) (sig : list flt) : Prop :=
      match hist with
      | None => sig = []
      | Some h =>
        match rev ticks with
        | [] => prev = (-1)%Z /\ sig = []
        | t :: _ => latest_index h (timestamp_sec t) prev /\ signals_known hist (timestamp_sec t) sig
        end
      end.

    Lemma latest_index_record h t i r :
      good_side_history h -> (0 <= i)%Z -> nth_error h (Z.to_nat i) = Some r ->
      latest_index h t i -> latest_record h t (Some r).
    Proof.
      intros G Hi Hr [[-> _]|(_ & r' & Hr' & Ht & Hl)]; [lia|].
      rewrite Hr in Hr'. injection Hr' as <-. split; [apply nth_error_In in Hr; exact Hr|].
      split; [exact Ht|]. intros x Hx Hxt. apply In_nth_error in Hx as [j Hj].
      destruct (le_lt_dec j (Z.to_nat i)) as [L|L].
      - apply (ts_mono h j (Z.to_nat i)); auto.
      - specialize (Hl j x Hj L). lia.
    Qed.

    Lemma side_part_ok ticks t prev sig sig' prev' :
      side_inv ticks prev sig ->
      (hist = None \/ match rev ticks with [] => True | t0 :: _ => (timestamp_sec t0 <= timestamp_sec t)%Z end) ->
      side_input_part side t sig prev = Done (sig', prev') ->
      side_inv (ticks ++ [t]) prev' sig' /\ signals_known hist (timestamp_sec t) sig'.
    Proof.
      intros Hinv Hord H. unfold side_inv, side_matches in *. rewrite rev_app_distr. cbn [rev app].
      destruct hist as [h|]; destruct side as [si|]; try contradiction.
      - destruct Hside as [G Hnew]. destruct (NewSideInput_good h G) as (n & Hnew' & Hn).
        rewrite Hnew in Hnew'. injection Hnew' as ->.
        unfold side_input_part in H.
        assert (Hint : exists i, GetSideInputIndexHint (si_of n h) (timestamp_sec t) prev = Done i
                                 /\ latest_index h (timestamp_sec t) i).
        { apply Hint_latest; auto. destruct Hord as [?|Hord]; [discriminate|].
          destruct (rev ticks) as [|t0 ?].
          - left. apply Hinv.
          - destruct Hinv as [[[-> _]|(Hp & r & Hr & Hrt & _)] _]; [left; reflexivity|].
            right. split; [exact Hp|]. exists r. split; [exact Hr|lia]. }
        destruct Hint as (i & Ei & Hi). rewrite Ei in H. cbn [bind] in H.
        destruct (i >=? 0)%Z eqn:E0.
        + rewrite Z.geb_leb in E0. apply Z.leb_le in E0.
          pose proof Hi as Hi'. destruct Hi' as [[-> _]|(_ & r & Hr & Hrt & _)]; [lia|].
          unfold GetSideInputTimestamp in H. rewrite (at_nth n h i r E0 Hr) in H. cbn [bind] in H.
          replace i with (Z.of_nat (Z.to_nat i)) in H at 1 by lia.
          rewrite (Signals_all n h (Z.to_nat i) r [] Hn Hr) in H. cbn [bind app] in H.
          injection H as <- <-.
          assert (Hk : signals_known (Some h) (timestamp_sec t)
                         (sr_signal r ++ [fofZ (timestamp_sec t - sr_timestamp_sec r)])).
          { exists (Some r). split; [|reflexivity]. apply (latest_index_record h _ i); auto. }
          split; [split|]; auto.
        + rewrite Z.geb_leb in E0. apply Z.leb_gt in E0.
          injection H as <- <-.
          destruct Hi as [[-> Hi]|(Hi0 & _)]; [|lia].
          assert (Hk : signals_known (Some h) (timestamp_sec t) []).
          { exists None. split; [exact Hi|reflexivity]. }
          assert (Hold : prev = (-1)%Z /\ sig = []).
          { destruct (rev ticks) as [|t0 ?]; [exact Hinv|].
            destruct Hord as [?|Hord]; [discriminate|].
            destruct Hinv as [[[-> _]|(Hp & r & Hr & Hrt & _)] Hs].
            - split; [reflexivity|]. destruct Hs as (r & Hl & ->). destruct r as [r|]; [|reflexivity].
              destruct Hl as (Hin & Hle & _). specialize (Hi r Hin). lia.
            - apply nth_error_In in Hr. specialize (Hi r Hr). lia. }
          destruct Hold as [-> ->]. split; [split; [left; auto|exact Hk]|exact Hk].
      - unfold side_input_part in H. injection H as <- <-. split; auto. 
    Qed.

    Lemma side_part_total ticks t prev sig :
      side_inv ticks prev sig ->
      (hist = None \/ match rev ticks with [] => True | t0 :: _ => (timestamp_sec t0 <= timestamp_sec t)%Z end) ->
      exists r, side_input_part side t sig prev = Done r.
    Proof.
      intros Hinv Hord. unfold side_inv, side_matches in *.
      destruct hist as [h|]; destruct side as [si|]; try contradiction; [|eexists; reflexivity].
      destruct Hside as [G Hnew]. destruct (NewSideInput_good h G) as (n & Hnew' & Hn).
      rewrite Hnew in Hnew'. injection Hnew' as ->.
      unfold side_input_part.
      assert (Hint : exists i, GetSideInputIndexHint (si_of n h) (timestamp_sec t) prev = Done i
                               /\ latest_index h (timestamp_sec t) i).
      { apply Hint_latest; auto. destruct Hord as [?|Hord]; [discriminate|].
        destruct (rev ticks) as [|t0 ?].
        - left. apply Hinv.
        - destruct Hinv as [[[-> _]|(Hp & r & Hr & Hrt & _)] _]; [left; reflexivity|].
          right. split; [exact Hp|]. exists r. split; [exact Hr|lia]. }
      destruct Hint as (i & Ei & Hi). rewrite Ei. cbn [bind].
      destruct (i >=? 0)%Z eqn:E0; [|eexists; reflexivity].
      rewrite Z.geb_leb in E0. apply Z.leb_le in E0.
      destruct Hi as [[-> _]|(_ & r & Hr & Hrt & _)]; [lia|].
      unfold GetSideInputTimestamp. rewrite (at_nth n h i r E0 Hr). cbn [bind].
      pose proof (Signals_all n h (Z.to_nat i) r [] Hn Hr) as HS. rewrite Z2Nat.id in HS by exact E0.
      rewrite HS. cbn [bind app]. eexists. reflexivity.
    Qed.

    (** A daily volatility indicator (of all values) that got these updates. *)
    Definition fed (xs : list balance_update) (v : volatility) : Prop :=
      exists v0, NewVolatility 0 kSecondsPerDay = Done v0 /\
        foldM (fun s x => vol_Update kSecondsPerDay s (bu_tick x) (bu_base x) (bu_quote x)) v0 xs = Done v.

    Lemma fed_snoc xs x v v' : fed xs v -> vol_Update kSecondsPerDay v (bu_tick x) (bu_base x) (bu_quote x) = Done v' ->
      fed (xs ++ [x]) v'.
    Proof. intros (v0 & H1 & H2) H. exists v0. split; [exact H1|]. rewrite foldM_snoc, H2. exact H. Qed.

    Record state_inv (l0 : lg_state lg) (ticks : list ohlc_tick) (s : exec_state te lg)
           (rows : list (row (te_state te))) : Prop := StateInv {
      si_story : story cfg hist te ticks rows;
      si_account : x_account te lg s = final_account cfg rows;
      si_orders : x_orders te lg s = match last_update rows with None => [] | Some (_, os) => os end;
      si_trader : x_trader te lg s = match last_update rows with None => te_new te | Some (st, _) => st end;
      si_executed : x_executed te lg s = executed_count rows;
      si_log : x_log te lg s = logged l0 (te_show te) (story_log rows);
      si_side : side_inv ticks (x_prev_index te lg s) (x_signals te lg s);
      si_base_vol : fast = false -> fed (market_updates rows) (x_base_vol te lg s);
      si_trader_vol : fast = false -> fed (portfolio_updates rows) (x_trader_vol te lg s)
    }.

    Lemma write_lines_app {S} (show : S -> string) l1 l2 l :
      write_lines lg show (l1 ++ l2) l = write_lines lg show l2 (write_lines lg show l1 l).
    Proof. apply fold_left_app. Qed.

    Lemma time_ordered_snoc ticks t : time_ordered (ticks ++ [t]) ->
      time_ordered ticks /\
      match rev ticks with [] => True | t0 :: _ => (timestamp_sec t0 <= timestamp_sec t)%Z end.
    Proof.
      intros H. split.
      - intros i j a b Ha Hb Hij. apply (H i j); auto; rewrite nth_error_app1; auto;
          apply nth_error_Some; congruence.
      - destruct (rev ticks) as [|t0 tr] eqn:E; [exact I|].
        assert (Ht : ticks = rev tr ++ [t0]) by (rewrite <- (rev_involutive ticks), E; reflexivity).
        subst ticks. apply (H (List.length (rev tr)) (S (List.length (rev tr)))).
        + rewrite <- app_assoc. rewrite nth_error_app2 by lia. rewrite Nat.sub_diag. reflexivity.
        + rewrite <- app_assoc. rewrite nth_error_app2 by lia.
          replace (S _ - _) with 1 by lia. reflexivity.
        + lia.
    Qed.

    Lemma final_account_snoc rows (r : row (te_state te)) : final_account cfg (rows ++ [r]) = account_after r.
    Proof. unfold final_account. rewrite rev_app_distr. reflexivity. Qed.

    Lemma run_inv l0 ticks s0 s :
      exec_init cfg te lg l0 = Done s0 ->
      (hist = None \/ time_ordered ticks) ->
      foldM (tick_step cfg side fast te lg has_logger) s0 ticks = Done s ->
      exists rows, state_inv l0 ticks s rows.
    Proof.
      intros Hinit. revert s. induction ticks as [|t ticks IH] using rev_ind; intros s Hord H.
      - injection H as <-. unfold exec_init in Hinit.
        apply bind_done in Hinit as (bv & Hbv & Hinit). rewrite Hbv in Hinit. cbn [bind] in Hinit. injection Hinit as <-.
        exists []. split; cbn [x_account x_orders x_trader x_executed x_log x_prev_index x_signals x_base_vol x_trader_vol];
          try (intros _; exists bv; split; [exact Hbv|reflexivity]); cbn; auto.
        + split; [reflexivity|]. intros [|? ?] ? ? E; discriminate.
        + unfold logged. destruct has_logger; reflexivity.
        + unfold side_inv. destruct hist; cbn; auto.
      - rewrite foldM_snoc in H. apply bind_done in H as (s1 & H1 & H2).
        destruct (IH s1) as [rows [Ist Iac Ior Itr Iex Ilo Isi Ibv Itv]]; auto.
        { destruct Hord as [?|Hord]; [left; auto|right]. apply time_ordered_snoc in Hord. apply Hord. }
        unfold tick_step in H2. apply bind_done in H2 as ([sig prev] & Hsp & H2).
        destruct (side_part_ok ticks t _ _ sig prev Isi) as [Hsi Hsk]; auto.
        { destruct Hord as [?|Hord]; [left; auto|right]. apply time_ordered_snoc in Hord. apply Hord. }
        apply bind_done in H2 as ([[a n] l2] & Hol & H2).
        apply order_loop in Hol as (atts & Hm & Htr & -> & -> & ->).
        set (a' := att_account (x_account te lg s1) atts) in *.
        set (mk := fun u : option (te_state te * list order) => Row t (x_account te lg s1) atts sig u).
        assert (Hafter : forall u, account_after (mk u) = a') by reflexivity.
        assert (Hcount : forall u, executed_count (rows ++ [mk u])
                 = (x_executed te lg s1 + Z.of_nat (List.length (executed atts)))%Z).
        { intros u. unfold executed_count. rewrite flat_map_app, app_length. cbn [flat_map].
          rewrite app_nil_r. cbn [mk w_attempts]. rewrite Iex. unfold executed_count. lia. }
        assert (Hrow : forall u, (match u with
            | None => feqb (volume t) (fofZ 0) = true
            | Some (st, os) => feqb (volume t) (fofZ 0) = false /\
                te_update te (x_trader te lg s1) t sig (base_balance a') (quote_balance a') = Done (st, os) end) ->
            row_ok cfg hist te rows (mk u)).
        { intros u Hu. split; cbn [mk w_account w_attempts w_tick w_signals w_update]; auto.
          - rewrite Hm. exact Ior.
          - rewrite <- Itr. destruct u as [[st os]|]; auto. }
        destruct (feqb (volume t) (fofZ 0)) eqn:Ev.
        + injection H2 as <-. exists (rows ++ [mk None]).
          split; cbn [x_account x_orders x_trader x_executed x_log x_prev_index x_signals x_base_vol x_trader_vol].
          * apply story_snoc; auto.
          * rewrite final_account_snoc. reflexivity.
          * rewrite last_update_snoc. exact Ior.
          * rewrite last_update_snoc. exact Itr.
          * rewrite Hcount. reflexivity.
          * unfold logged, story_log, log_if in *. rewrite flat_map_app. rewrite Ilo.
            destruct has_logger; [|reflexivity]. rewrite write_lines_app. cbn [flat_map].
            rewrite app_nil_r. unfold row_log. cbn [mk w_update]. rewrite app_nil_r. reflexivity.
          * exact Hsi.
          * unfold market_updates. rewrite flat_map_app. cbn [flat_map mk w_update app]. rewrite app_nil_r. exact Ibv.
          * unfold portfolio_updates. rewrite flat_map_app. cbn [flat_map mk w_update app]. rewrite app_nil_r. exact Itv.
        + apply bind_done in H2 as ([ts os] & Hup & H2).
          apply bind_done in H2 as (bv & Hbv & H2). apply bind_done in H2 as (tv & Htv & H2).
          injection H2 as <-. exists (rows ++ [mk (Some (ts, os))]).
          split; cbn [x_account x_orders x_trader x_executed x_log x_prev_index x_signals x_base_vol x_trader_vol].
          * apply story_snoc; auto.
          * rewrite final_account_snoc. reflexivity.
          * rewrite last_update_snoc. reflexivity.
          * rewrite last_update_snoc. reflexivity.
          * rewrite Hcount. reflexivity.
          * unfold logged, story_log, log_if in *. rewrite flat_map_app. rewrite Ilo.
            destruct has_logger; [|reflexivity]. rewrite write_lines_app. cbn [flat_map].
            rewrite app_nil_r. unfold row_log. cbn [mk w_update w_tick w_account w_attempts].
            rewrite app_comm_cons, write_lines_app. reflexivity.
          * exact Hsi.
          * intros Hf. rewrite Hf in Hbv. unfold market_updates. rewrite flat_map_app. cbn [flat_map mk w_update w_tick app].
            eapply fed_snoc; [apply Ibv, Hf|exact Hbv].
          * intros Hf. rewrite Hf in Htv. unfold portfolio_updates. rewrite flat_map_app. cbn [flat_map mk w_update w_tick app].
            eapply fed_snoc; [apply Itv, Hf|exact Htv].
    Qed.

    Theorem run_story_volatility ticks first l0 res l :
      (hist = None \/ time_ordered ticks) -> hd_error ticks = Some first ->
      ExecuteTrader cfg side fast te lg has_logger ticks l0 = Done (res, l) ->
      exists rows, story cfg hist te ticks rows /\
        result_of cfg first (List.last ticks first) rows res /\
        if fast then r_base_volatility res = None /\ r_trader_volatility res = None
        else exists bv tv, fed (market_updates rows) bv /\ fed (portfolio_updates rows) tv /\
               r_base_volatility res = Some (annualize (vol_Get bv)) /\
               r_trader_volatility res = Some (annualize (vol_Get tv)).
    Proof.
      intros Hord Hfirst H. destruct ticks as [|f0 rest]; [discriminate|]. injection Hfirst as ->. unfold ExecuteTrader in H.
      apply bind_done in H as (s0 & Hi & H). apply bind_done in H as (s & Hf & H).
      injection H as <- <-.
      destruct (run_inv l0 (first :: rest) s0 s Hi Hord Hf) as [rows [Ist Iac Ior Itr Iex Ilo Isi Ibv Itv]].
      exists rows. split; [exact Ist|]. split; [unfold result_of, exec_result; cbn; rewrite <- Iac; repeat split; exact Iex|].
      unfold exec_result. cbn [r_base_volatility r_trader_volatility].
      destruct fast; [split; reflexivity|]. do 2 eexists. split; [apply Ibv; reflexivity|]. split; [apply Itv; reflexivity|]. split; reflexivity.
    Qed.

    Theorem run_story ticks l0 res l :
      (hist = None \/ time_ordered ticks) ->
      ExecuteTrader cfg side fast te lg has_logger ticks l0 = Done (res, l) ->
      (ticks = [] /\ res = empty_execution_result /\ l = l0) \/
      exists first rest rows, ticks = first :: rest /\
        story cfg hist te ticks rows /\
        result_of cfg first (List.last ticks first) rows res /\
        l = logged l0 (te_show te) (story_log rows).
    Proof.
      intros Hord H. unfold ExecuteTrader in H. destruct ticks as [|first rest].
      - left. injection H as <- <-. auto.
      - right. apply bind_done in H as (s0 & Hi & H). apply bind_done in H as (s & Hf & H).
        injection H as <- <-.
        destruct (run_inv l0 (first :: rest) s0 s Hi Hord Hf) as [rows [Ist Iac Ior Itr Iex Ilo Isi _ _]].
        exists first, rest, rows. split; [reflexivity|]. split; [exact Ist|]. split; [|exact Ilo].
        unfold result_of, exec_result. cbn. rewrite <- Iac. repeat split. exact Iex.
    Qed.
  End Fixed.

  (** *** Stories are determined by what is known. *)

  Lemma tried_unique cfg t a l1 l2 :
    map (fun x => fst (fst x)) l1 = map (fun x => fst (fst x)) l2 ->
    tried cfg t a l1 -> tried cfg t a l2 -> l1 = l2.
  Proof.
    revert a l2. induction l1 as [|[[o ok] a1] l1 IH]; intros a [|[[o' ok'] a1'] l2] Hm H1 H2; try discriminate; auto.
    cbn in Hm. injection Hm as <- Hm. destruct H1 as [E1 H1], H2 as [E2 H2].
    rewrite E1 in E2. injection E2 as <- <-. f_equal. apply (IH a1); auto.
  Qed.

  Definition side_good (s : option (list side_record)) : Prop :=
    match s with None => True | Some h => good_side_history h end.

  Lemma same_ts_same h r r' : good_side_history h -> In r h -> In r' h ->
    sr_timestamp_sec r = sr_timestamp_sec r' -> r = r'.
  Proof.
    intros G H1 H2 E. apply In_nth_error in H1 as [i Hi], H2 as [j Hj].
    destruct (lt_eq_lt_dec i j) as [[L|L]|L].
    - pose proof (gs_increasing h G i j r r' Hi Hj L). lia.
    - congruence.
    - pose proof (gs_increasing h G j i r' r Hj Hi L). lia.
  Qed.

  Lemma signals_known_same s1 s2 T t g1 g2 :
    side_good s1 -> side_good s2 -> same_knowledge s1 s2 T -> (t <= T)%Z ->
    signals_known s1 t g1 -> signals_known s2 t g2 -> g1 = g2.
  Proof.
    intros G1 G2 Hs Ht H1 H2. destruct s1 as [h1|], s2 as [h2|]; cbn in *; try contradiction; [|congruence].
    destruct H1 as (r1 & L1 & ->), H2 as (r2 & L2 & ->).
    assert (E : r1 = r2); [|rewrite E; reflexivity].
    destruct r1 as [r1|], r2 as [r2|]; cbn in *; auto.
    - destruct L1 as (I1 & T1 & M1), L2 as (I2 & T2 & M2). f_equal.
      apply (same_ts_same h1); auto; [apply Hs; auto; lia|].
      apply Z.le_antisymm; [apply M2; auto; apply Hs; auto; lia|apply M1; auto; apply Hs; auto; lia].
    - destruct L1 as (I1 & T1 & M1). apply Hs in I1; [|lia]. specialize (L2 _ I1). lia.
    - destruct L2 as (I2 & T2 & M2). apply Hs in I2; [|lia]. specialize (L1 _ I2). lia.
  Qed.

  Lemma row_unique cfg s1 s2 te before r1 r2 T :
    side_good s1 -> side_good s2 -> same_knowledge s1 s2 T -> (timestamp_sec (w_tick r1) <= T)%Z ->
    w_tick r1 = w_tick r2 ->
    row_ok cfg s1 te before r1 -> row_ok cfg s2 te before r2 -> r1 = r2.
  Proof.
    intros G1 G2 Hk HT Ht [A1 O1 T1 S1 U1] [A2 O2 T2 S2 U2].
    destruct r1 as [t1 a1 at1 sg1 u1], r2 as [t2 a2 at2 sg2 u2].
    cbn [w_tick w_account w_attempts w_signals w_update] in *. subst t2.
    rewrite <- A2 in A1. subst a2.
    assert (at1 = at2) by (apply (tried_unique cfg t1 a1); congruence). subst at2.
    assert (sg1 = sg2) by (apply (signals_known_same s1 s2 T (timestamp_sec t1)); auto). subst sg2.
    f_equal. unfold account_after in *. cbn [w_attempts w_account] in *.
    destruct u1 as [[st1 os1]|], u2 as [[st2 os2]|]; auto; try (destruct U1; congruence);
      try (destruct U2; congruence).
    destruct U1 as [_ U1], U2 as [_ U2]. rewrite U1 in U2. injection U2 as <- <-. reflexivity.
  Qed.

  Lemma firstn_exact {A} n (b l : list A) : List.length b = n -> firstn n (b ++ l) = b.
  Proof. intros <-. induction b as [|x b IH]; cbn; [reflexivity|]. rewrite IH. reflexivity. Qed.

  Lemma firstn_exact_S {A} n (b l : list A) x : List.length b = n -> firstn (S n) (b ++ x :: l) = b ++ [x].
  Proof. intros <-. induction b as [|y b IH]; cbn in *; [reflexivity|]. rewrite IH. reflexivity. Qed.

  Theorem story_prefix cfg s1 s2 te common rest1 rest2 rows1 rows2 T :
    side_good s1 -> side_good s2 -> same_knowledge s1 s2 T ->
    (forall t, In t common -> (timestamp_sec t <= T)%Z) ->
    story cfg s1 te (common ++ rest1) rows1 -> story cfg s2 te (common ++ rest2) rows2 ->
    firstn (List.length common) rows1 = firstn (List.length common) rows2.
  Proof.
    intros G1 G2 Hk HT H1 H2.
    assert (Hn : forall n, n <= List.length common -> firstn n rows1 = firstn n rows2).
    { induction n as [|n IH]; intros Hn; [reflexivity|].
      specialize (IH ltac:(lia)).
      destruct H1 as [Hm1 Ok1], H2 as [Hm2 Ok2].
      assert (L1 : n < List.length rows1).
      { rewrite <- (map_length w_tick), Hm1, app_length. lia. }
      assert (L2 : n < List.length rows2).
      { rewrite <- (map_length w_tick), Hm2, app_length. lia. }
      destruct (nth_error rows1 n) as [r1|] eqn:E1; [|apply nth_error_None in E1; lia].
      destruct (nth_error rows2 n) as [r2|] eqn:E2; [|apply nth_error_None in E2; lia].
      destruct (nth_error_split rows1 n E1) as (b1 & a1 & -> & Lb1).
      destruct (nth_error_split rows2 n E2) as (b2 & a2 & -> & Lb2).
      rewrite (firstn_exact n b1), (firstn_exact n b2) in IH by auto. subst b2.
      assert (Hr : r1 = r2).
      { assert (N1 : nth_error (common ++ rest1) n = Some (w_tick r1)).
        { rewrite <- Hm1, nth_error_map, E1. reflexivity. }
        assert (N2 : nth_error (common ++ rest2) n = Some (w_tick r2)).
        { rewrite <- Hm2, nth_error_map, E2. reflexivity. }
        rewrite nth_error_app1 in N1, N2 by lia.
        apply (row_unique cfg s1 s2 te b1 r1 r2 T); auto.
        - apply HT. apply nth_error_In in N1. exact N1.
        - congruence.
        - apply (Ok1 b1 r1 a1). reflexivity.
        - apply (Ok2 b1 r2 a2). reflexivity. }
      subst r2. rewrite !(firstn_exact_S n b1) by auto. reflexivity. }
    apply Hn. lia.
  Qed.
End RunProofs.
