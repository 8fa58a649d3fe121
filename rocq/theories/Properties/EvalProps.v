(** C22-C24, C27-C29: evaluating traders over time windows, in batches, and their scores. *)
From Coq Require Import ZArith Bool List Lia String Reals Lra.
From Flocq Require Import Core BinarySingleNaN.
From Verif.Model Require Import Outcome Machine Types Account History SideInput Indicators TimeUtil Eval MachineR MachineIEEE.
From Verif.Spec Require Import SeriesSpec HistorySpec RunSpec EvalSpec TimeSpec.
From Verif.Proofs Require Import Base TimeProofs SubsetProofs RunPairs EvalProofs BatchProofs FloatLemmas.
Import ListNotations.

Lemma Done_eq {A} (x y : A) : Done x = Done y -> x = y.
Proof. congruence. Qed.

Lemma Forall2_map_l {A B C} (R : B -> C -> Prop) (f : A -> B) l l' :
  Forall2 R (map f l) l' -> Forall2 (fun x y => R (f x) y) l l'.
Proof.
  revert l'. induction l as [|x l IH]; intros l' H; cbn in H; inversion H; subst; constructor; auto.
Qed.

(** The history starts in time: HistorySubset reads a start of 0 (or less) as "no bound". *)
Section Windows.
  Context {M : machine}.
  Context (cfg : account_config) (ec : evaluation_config) (history : list ohlc_tick)
          (side : option side_input) (te : trader_emitter) (lg : logger) (hl : bool).
  Local Open Scope Z_scope.

  (** ** C22 With a positive period there is a number K of windows, namely all those that end
      no later than the configured end, and the evaluation is the evaluation of these windows
      in order (a window without ticks does nothing), followed by the summary.  This is an
      equation between outcomes: it includes every failure. *)
  Theorem C22_windows :
    ordered timestamp_sec history -> 0 < evaluation_period_months ec ->
    0 < ec_start_timestamp_sec ec \/ (ec_start_timestamp_sec ec = 0 /\ forall t, In t history -> 0 <= timestamp_sec t) ->
    exists K, 0 <= K /\
      (forall k, 0 <= k -> (window_end ec k <= ec_end_timestamp_sec ec <-> k < K)) /\
      forall fuel l, K < Z.of_nat fuel ->
        EvaluateTrader cfg ec history side te lg hl fuel l
        = do '(periods, l') <- foldM (evaluate_window cfg ec side te lg hl history) ([], l)
                                     (map (fun k => (window_start ec k, window_end ec k)) (offsets K)) ;
          do r <- eval_summary cfg ec te periods ;
          Done (r, l').
  Proof.
    intros Ho Hp Hc. destruct (window_count ec Hp) as (K & HK & HKs).
    exists K. split; [lia|]. split; [exact HKs|]. intros fuel l Hf. unfold EvaluateTrader.
    rewrite (eval_loop_windows cfg ec history side te lg hl Ho Hp K fuel 0 [] l Hc HKs) by lia.
    unfold offsets. replace (K - 0) with K by lia. reflexivity.
  Qed.

  (** The reported periods: exactly the windows that end in time and contain a tick, in
      order, each with the result of a fresh trader run over the ticks of the window. *)
  Theorem C22_periods : forall fuel l r l',
    ordered timestamp_sec history -> 0 < evaluation_period_months ec ->
    0 < ec_start_timestamp_sec ec \/ (ec_start_timestamp_sec ec = 0 /\ forall t, In t history -> 0 <= timestamp_sec t) ->
    EvaluateTrader cfg ec history side te lg hl fuel l = Done (r, l') ->
    exists K, 0 <= K /\
      (forall k, 0 <= k -> (window_end ec k <= ec_end_timestamp_sec ec <-> k < K)) /\
      Forall2 (fun k p => period_reports cfg side (fast_eval ec) te
                            (ticks_in history (window_start ec k) (window_end ec k))
                            (window_start ec k) (window_end ec k) p)
              (filter (fun k => match ticks_in history (window_start ec k) (window_end ec k) with
                                | [] => false | _ => true end) (offsets K))
              (er_period r).
  Proof.
    intros fuel l r l' Ho Hp Hc H. destruct (C22_windows Ho Hp Hc) as (K & HK & HKs & E).
    exists K. split; [exact HK|]. split; [exact HKs|].
    assert (Hf : exists fuel', K < Z.of_nat fuel' /\ EvaluateTrader cfg ec history side te lg hl fuel' l = Done (r, l')).
    { exists (fuel + Z.to_nat K + 1)%nat. split; [lia|]. revert H. unfold EvaluateTrader. intros H. apply bind_done in H as ([ps l1] & H & H2).
      assert (Mono : forall n m s x, eval_loop cfg ec history side te lg hl n s = Done x -> eval_loop cfg ec history side te lg hl (n + m) s = Done x).
      { clear. induction n as [|n IH]; intros m s x H; [discriminate|]. cbn [eval_loop Nat.add] in *. apply bind_done in H as (y & -> & H).
        cbn [bind]. destruct y; [apply IH; exact H|exact H]. }
      rewrite <- Nat.add_assoc. rewrite (Mono _ _ _ _ H). cbn [bind]. exact H2. }
    destruct Hf as (fuel' & Hf & H'). rewrite (E _ _ Hf) in H'. apply bind_done in H' as ([ps l1] & HF & H').
    apply bind_done in H' as (r' & Hr & Er). injection Er as -> ->.
    destruct (fold_periods cfg ec history side te lg hl _ _ _ _ _ HF) as (new & -> & F). cbn [app] in Hr.
    assert (er_period r = new) as ->.
    { unfold eval_summary in Hr. apply bind_done in Hr as (sc & _ & Hr). injection Hr as <-. reflexivity. }
    clear - F. set (f := fun k => (window_start ec k, window_end ec k)) in F.
    assert (FM : forall (g : Z * Z -> bool) l, filter g (map f l) = map f (filter (fun k => g (f k)) l)).
    { intros g l. induction l as [|x l IH]; [reflexivity|]. cbn. destruct (g (f x)); cbn; rewrite IH; reflexivity. }
    rewrite FM in F. apply Forall2_map_l in F. exact F.
  Qed.

  (** ** C23 Termination: more than end - start iterations never happen; if the trader's own
      updates terminate, so does the evaluation. *)
  Theorem C23_terminates : forall fuel l,
    ordered timestamp_sec history -> 0 < evaluation_period_months ec ->
    0 < ec_start_timestamp_sec ec \/ (ec_start_timestamp_sec ec = 0 /\ forall t, In t history -> 0 <= timestamp_sec t) ->
    Z.max 0 (ec_end_timestamp_sec ec - ec_start_timestamp_sec ec) < Z.of_nat fuel ->
    (forall st t sig b q, te_update te st t sig b q <> Diverged) ->
    EvaluateTrader cfg ec history side te lg hl fuel l <> Diverged /\
    forall fuel', (fuel <= fuel')%nat ->
      EvaluateTrader cfg ec history side te lg hl fuel' l = EvaluateTrader cfg ec history side te lg hl fuel l.
  Proof.
    intros fuel l Ho Hp Hc Hf Ht. destruct (window_count ec Hp) as (K & HK & HKs).
    assert (E : forall n, (fuel <= n)%nat -> EvaluateTrader cfg ec history side te lg hl n l =
      do '(ps, l0) <- foldM (evaluate_window cfg ec side te lg hl history) ([], l)
        (map (fun j => (window_start ec j, window_end ec j)) (map (fun i => 0 + Z.of_nat i) (seq 0 (Z.to_nat (K - 0))))) ;
      do r <- eval_summary cfg ec te ps ; Done (r, l0)).
    { intros n Hn. unfold EvaluateTrader. rewrite (eval_loop_windows cfg ec history side te lg hl Ho Hp K n 0 [] l Hc HKs) by lia. reflexivity. }
    split; [|intros n Hn; rewrite (E n Hn), (E fuel (le_n _)); reflexivity].
    rewrite (E fuel (le_n _)). apply quiet_bind.
    - apply quiet_foldM. intros s [start end_]. unfold evaluate_window. destruct (ticks_in history start end_) eqn:Et; [apply quiet_done|].
      rewrite <- Et. apply quiet_bind.
      + apply quiet_execute; [exact Ht|]. unfold ticks_in. apply ordered_filter. exact Ho.
      + intros [res l2] _. apply quiet_bind; [apply quiet_assert|]. intros _ _. apply quiet_bind; [apply quiet_assert|]. intros _ _. apply quiet_done.
    - intros [ps l0] _. apply quiet_bind; [apply quiet_summary|]. intros ? _. apply quiet_done.
  Qed.

  (** ** C24 Period zero: a range with at least one tick gives exactly one period. *)
  Theorem C24_whole_range : forall fuel l,
    ordered timestamp_sec history -> evaluation_period_months ec = 0 ->
    ec_start_timestamp_sec ec <= ec_end_timestamp_sec ec ->
    let ticks := filter (fun t => in_interval (ec_start_timestamp_sec ec) (ec_end_timestamp_sec ec) (timestamp_sec t)) history in
    ticks <> [] -> (0 < fuel)%nat ->
    (forall r l', EvaluateTrader cfg ec history side te lg hl fuel l = Done (r, l') ->
       exists p, er_period r = [p] /\
         period_reports cfg side (fast_eval ec) te ticks (ec_start_timestamp_sec ec) (ec_end_timestamp_sec ec) p) /\
    ((forall st t sig b q, te_update te st t sig b q <> Diverged) ->
       EvaluateTrader cfg ec history side te lg hl fuel l <> Diverged).
  Proof.
    intros fuel l Ho Hp Hse ticks Hne Hf. destruct fuel as [|fuel]; [lia|].
    assert (W : eval_window ec 0 = (ec_start_timestamp_sec ec, ec_end_timestamp_sec ec)).
    { unfold eval_window. rewrite Hp. change (0 >? 0) with false. cbv iota zeta. f_equal.
      destruct (to_civil (ec_start_timestamp_sec ec)) as (y & m & d & s & H & _). rewrite (add_months _ 0 y m d s H), Z.add_0_r.
      symmetry. apply at_civil_first. exact H. }
    pose proof (step_window cfg ec history side te lg hl Ho 0 [] l _ _ W (Z.le_refl _) ltac:(lia)) as S.
    fold ticks in S. destruct ticks as [|x r0] eqn:Et; [congruence|]. rewrite Hp in S. change (0 =? 0) with true in S. cbv iota zeta in S.
    unfold EvaluateTrader. cbn [eval_loop]. rewrite S. split.
    - intros r l' H. apply bind_done in H as ([ps l1] & H & H2). apply bind_done in H as (q & H & Hq).
      apply bind_done in H as ([res l2] & E1 & H). apply bind_done in H as (u1 & _ & H). apply bind_done in H as (u2 & _ & H).
      injection H as <-. injection Hq as <- <-. apply bind_done in H2 as (r' & Hr & Er). injection Er as -> ->.
      eexists. split.
      + unfold eval_summary in Hr. apply bind_done in Hr as (sc & _ & Hr). injection Hr as <-. reflexivity.
      + unfold period_reports. cbn [p_start_timestamp_sec p_end_timestamp_sec p_result p_final_gain p_base_final_gain].
        repeat (split; [reflexivity|]). split; [|split; reflexivity].
        unfold run_quietly. rewrite (logger_irrelevant cfg side (fast_eval ec) te null_logger lg false hl (x :: r0) tt l), E1. reflexivity.
    - intros Ht. apply quiet_bind.
      + apply quiet_bind.
        * apply quiet_bind.
          { apply quiet_execute; [exact Ht|]. rewrite <- Et. unfold ticks. apply ordered_filter. exact Ho. }
          intros [res l0] _. apply quiet_bind; [apply quiet_assert|]. intros _ _. apply quiet_bind; [apply quiet_assert|]. intros _ _. apply quiet_done.
        * intros [s'|[ps l1]] Hs; [|apply quiet_done]. exfalso.
          apply bind_done in Hs as ([res l2] & _ & H). apply bind_done in H as (u1 & _ & H). apply bind_done in H as (u2 & _ & H). discriminate.
      + intros [ps l0] _. apply quiet_bind; [apply quiet_summary|]. intros ? _. apply quiet_done.
  Qed.

  (** A range without ticks never gives a result: the loop goes on for ever (or walks past
      the end of the history). *)
  Theorem C24_no_ticks_never_returns : forall fuel l,
    ordered timestamp_sec history -> evaluation_period_months ec = 0 ->
    0 < ec_start_timestamp_sec ec -> ec_start_timestamp_sec ec <= ec_end_timestamp_sec ec ->
    ticks_in history (ec_start_timestamp_sec ec) (ec_end_timestamp_sec ec) = [] ->
    EvaluateTrader cfg ec history side te lg hl fuel l = Diverged \/
    EvaluateTrader cfg ec history side te lg hl fuel l = Undefined.
  Proof.
    intros fuel l Ho Hp Hs Hse Hn. unfold EvaluateTrader.
    assert (L : forall fuel k ps l, 0 <= k ->
       eval_loop cfg ec history side te lg hl fuel (k, ps, l) = Diverged \/ eval_loop cfg ec history side te lg hl fuel (k, ps, l) = Undefined).
    { clear fuel l. induction fuel as [|fuel IH]; intros k ps l Hk; [left; reflexivity|].
      cbn [eval_loop].
      assert (Hst : ec_start_timestamp_sec ec <= window_start ec k).
      { unfold window_start. destruct (to_civil (ec_start_timestamp_sec ec)) as (y & m & d & s & H & _).
        rewrite (add_months _ k y m d s H). rewrite (at_civil_first _ _ _ _ _ H) at 1. pose proof (first_gap (mu_of y m) k Hk). lia. }
      assert (W : eval_window ec k = (window_start ec k, ec_end_timestamp_sec ec)).
      { unfold eval_window, window_start. rewrite Hp. change (0 >? 0) with false. cbv iota zeta. reflexivity. }
      destruct (Z_le_gt_dec (window_start ec k) (ec_end_timestamp_sec ec)) as [Hle|Hgt].
      - rewrite (step_window cfg ec history side te lg hl Ho k ps l _ _ W (Z.le_refl _) ltac:(lia)).
        rewrite in_interval_ticks by lia.
        assert (E : ticks_in history (window_start ec k) (ec_end_timestamp_sec ec) = []).
        { destruct (ticks_in history (window_start ec k) _) as [|x r] eqn:E; [reflexivity|exfalso].
          assert (Hx : In x (ticks_in history (window_start ec k) (ec_end_timestamp_sec ec))) by (rewrite E; left; reflexivity).
          unfold ticks_in in Hx. apply filter_In in Hx as [Hx Hi]. apply andb_true_iff in Hi as [H1 H2].
          apply Z.leb_le in H1. apply Z.ltb_lt in H2.
          assert (Hx' : In x (ticks_in history (ec_start_timestamp_sec ec) (ec_end_timestamp_sec ec))).
          { unfold ticks_in. apply filter_In. split; [exact Hx|]. apply andb_true_iff. split; [apply Z.leb_le; lia|apply Z.ltb_lt; lia]. }
          rewrite Hn in Hx'. destruct Hx'. }
        rewrite E. cbn [bind]. apply IH. lia.
      - unfold eval_step. rewrite W. rewrite Z.gtb_ltb, Z.ltb_irrefl.
        unfold HistorySubset. rewrite !Z.gtb_ltb, !(proj2 (Z.ltb_lt 0 _)) by lia.
        pose proof (lower_bound_mono timestamp_sec history (ec_end_timestamp_sec ec) (window_start ec k) Ho ltac:(lia)) as Hlb.
        destruct (Nat.eqb_spec (lower_bound timestamp_sec history (window_start ec k)) (lower_bound timestamp_sec history (ec_end_timestamp_sec ec))).
        + cbn [bind]. apply IH. lia.
        + destruct (Nat.ltb_spec (lower_bound timestamp_sec history (ec_end_timestamp_sec ec)) (lower_bound timestamp_sec history (window_start ec k))); [|lia].
          right. reflexivity. }
    destruct (L fuel 0 [] l ltac:(lia)) as [-> | ->]; auto.
  Qed.

  (** With a negative period (the flag is a plain integer) no evaluation ever returns. *)
  Theorem C24_negative_period_never_returns : forall fuel l r,
    evaluation_period_months ec < 0 -> EvaluateTrader cfg ec history side te lg hl fuel l <> Done r.
  Proof.
    intros fuel l r Hp. unfold EvaluateTrader.
    assert (L : forall fuel k ps l x, eval_loop cfg ec history side te lg hl fuel (k, ps, l) <> Done x).
    { clear fuel l r. induction fuel as [|fuel IH]; intros k ps l x H; [discriminate|]. cbn [eval_loop] in H.
      apply bind_done in H as (y & E & H). unfold eval_step, eval_window in E.
      rewrite (Z.gtb_ltb (evaluation_period_months ec) 0), (proj2 (Z.ltb_ge 0 (evaluation_period_months ec))) in E by lia. cbv zeta iota in E. rewrite Z.gtb_ltb, Z.ltb_irrefl in E.
      destruct (HistorySubset _ _ _ _) as [b e]. destruct (b =? e)%nat; [injection E as <-; exact (IH _ _ _ _ H)|].
      destruct (e <? b)%nat; [discriminate|].
      apply bind_done in E as ([res l1] & _ & E). apply bind_done in E as (u1 & _ & E). apply bind_done in E as (u2 & _ & E).
      rewrite (proj2 (Z.eqb_neq _ 0)) in E by lia. injection E as <-. exact (IH _ _ _ _ H). }
    intros H. apply bind_done in H as ([ps l1] & H & _). exact (L _ _ _ _ _ H).
  Qed.

End Windows.

(** The literal claim ("any range gives a result") is false: with an empty history every
    number of iterations is too few. *)
Theorem C24_always_returns_refuted {M : machine} : exists ec : evaluation_config, evaluation_period_months ec = 0%Z /\
  forall cfg side te lg hl l fuel, EvaluateTrader cfg ec [] side te lg hl fuel l = Diverged.
Proof.
  exists {| ec_start_timestamp_sec := 1500000000; ec_end_timestamp_sec := 1600000000; evaluation_period_months := 0; fast_eval := true |}.
  split; [reflexivity|]. intros cfg side te lg hl l fuel. unfold EvaluateTrader.
  assert (L : forall fuel k ps l, eval_loop cfg {| ec_start_timestamp_sec := 1500000000; ec_end_timestamp_sec := 1600000000; evaluation_period_months := 0; fast_eval := true |}
     [] side te lg hl fuel (k, ps, l) = Diverged).
  { clear. induction fuel as [|fuel IH]; intros k ps l; [reflexivity|]. cbn [eval_loop]. unfold eval_step, eval_window.
    cbn [evaluation_period_months ec_start_timestamp_sec ec_end_timestamp_sec]. change (0 >? 0)%Z with false. cbv iota zeta.
    rewrite Z.gtb_ltb, Z.ltb_irrefl. unfold HistorySubset.
    assert (E : forall t, lower_bound timestamp_sec ([] : list ohlc_tick) t = 0%nat) by reflexivity.
    rewrite !E. destruct (_ >? 0)%Z; cbn [bind Nat.eqb]; apply IH. }
  rewrite L. reflexivity.
Qed.

(** ** C27 Batches. *)
Section BatchProps.
  Context {M : machine}.
  Context (cfg : account_config) (ec : evaluation_config) (history : list ohlc_tick) (side : option side_input).

  (** Evaluating one trader alone, without a logger, in at most n iterations. *)
  Definition evaluate_alone (n : nat) (te : trader_emitter) : outcome evaluation_result :=
    omap fst (EvaluateTrader cfg ec history side te null_logger false n tt).

  (** All the values in order, or the first failure. *)
  Definition all_in_order {A} (l : list (outcome A)) : outcome (list A) :=
    fold_right (fun x acc => do y <- x ; do ys <- acc ; Done (y :: ys)) (Done []) l.

  (** Every schedule in which every task gets enough turns to finish has the same outcome:
      that of evaluating the traders one after the other. *)
  Theorem C27_batch : forall emitters sched n,
    (forall te, In te emitters -> evaluate_alone n te <> Diverged) ->
    (forall i, (i < List.length emitters)%nat -> (n <= count_occ Nat.eq_dec sched i)%nat) ->
    EvaluateBatchOfTraders cfg ec history side emitters sched = all_in_order (map (evaluate_alone n) emitters).
  Proof.
    intros emitters sched n Hd Hn. unfold EvaluateBatchOfTraders. apply collect_all.
    set (ts := run_schedule cfg ec history side sched (map new_task emitters)).
    assert (Len : List.length ts = List.length (map (evaluate_alone n) emitters)).
    { unfold ts. rewrite length_schedule, !map_length. reflexivity. }
    assert (P : forall i t r, nth_error ts i = Some t -> nth_error (map (evaluate_alone n) emitters) i = Some r -> t = Finished r).
    { intros i t r Ht Hr. unfold ts in Ht. rewrite nth_schedule in Ht. rewrite nth_error_map in Ht, Hr.
      destruct (nth_error emitters i) as [te|] eqn:E; [|discriminate]. cbn in Ht, Hr. injection Ht as <-. injection Hr as <-.
      specialize (Hd te (nth_error_In _ _ E)). specialize (Hn i ltac:(apply nth_error_Some; congruence)).
      replace (count_occ Nat.eq_dec sched i) with (n + (count_occ Nat.eq_dec sched i - n))%nat by lia. rewrite steps_plus.
      change (evaluate_alone n te) with (alone cfg ec history side te n) in *. rewrite alone_loop in *.
      destruct (steps_loop cfg ec history side te n (0%Z, [], tt)) as [S|[S _]]; [|congruence].
      unfold new_task. rewrite S. apply steps_finished. }
    clear - Len P. revert Len P. generalize (map (evaluate_alone n) emitters). revert ts.
    induction ts as [|t ts IH]; intros [|r rs] L P; try discriminate; constructor.
    - apply (P O); reflexivity.
    - apply IH; [cbn in L; lia|]. intros i t' r' H1 H2. apply (P (S i)); auto.
  Qed.

  (** Whatever the schedule: if the batch returns, its results are those of the traders
      evaluated alone, in the order of the emitters. *)
  Theorem C27_any_schedule : forall emitters sched results,
    EvaluateBatchOfTraders cfg ec history side emitters sched = Done results ->
    Forall2 (fun te r => exists n, forall n', (n <= n')%nat -> evaluate_alone n' te = Done r) emitters results.
  Proof.
    intros emitters sched results H. apply collect_done in H.
    set (ts := run_schedule cfg ec history side sched (map new_task emitters)) in H.
    assert (P : forall i te t, nth_error emitters i = Some te -> nth_error ts i = Some t ->
      t = steps cfg ec history side (count_occ Nat.eq_dec sched i) (new_task te)).
    { intros i te t E Ht. unfold ts in Ht. rewrite nth_schedule, nth_error_map, E in Ht. cbn in Ht. congruence. }
    assert (Len : List.length ts = List.length emitters) by (unfold ts; rewrite length_schedule, map_length; reflexivity).
    clearbody ts. revert results emitters P Len H.
    assert (Gen : forall (cnt : nat -> nat) results emitters,
      (forall i te t, nth_error emitters i = Some te -> nth_error ts i = Some t -> t = steps cfg ec history side (cnt i) (new_task te)) ->
      List.length ts = List.length emitters -> Forall2 (fun t x => t = Finished (Done x)) ts results ->
      Forall2 (fun te r => exists n, forall n', (n <= n')%nat -> evaluate_alone n' te = Done r) emitters results).
    { induction ts as [|t ts IH]; intros cnt results emitters P Len H; inversion H; subst.
      - destruct emitters; [constructor|discriminate].
      - destruct emitters as [|te emitters]; [discriminate|]. constructor.
        + specialize (P O te _ eq_refl eq_refl). exists (cnt O). intros n' Hn.
          change (evaluate_alone n' te) with (alone cfg ec history side te n'). rewrite alone_loop.
          destruct (steps_loop cfg ec history side te n' (0%Z, [], tt)) as [S|[_ [s' S]]];
            replace n' with (cnt O + (n' - cnt O))%nat in S at 1 by lia; rewrite steps_plus in S; fold (new_task te) in S;
            rewrite <- P, steps_finished in S; congruence.
        + apply (IH (fun i => cnt (S i)) _ _ (fun i => P (S i))); auto. }
    intros results emitters P. apply Gen with (cnt := fun i => count_occ Nat.eq_dec sched i). exact P.
  Qed.
End BatchProps.

(** ** C28 Averages. *)
Section Averages.
  Context (show : R -> string) (as_ : bool).
  Local Notation E := (exact show as_).
  Local Open Scope R_scope.

  Definition mean (l : list R) : R := fold_right Rplus 0 l / INR (List.length l).
  Definition product (l : list R) : R := fold_right Rmult 1 l.

  Lemma average_mean {A} (l : list A) (f : A -> R) : l <> [] -> @GetAverage E A l f = mean (map f l).
  Proof.
    intros H. unfold GetAverage, mean. destruct l as [|a l]; [congruence|]. cbn [fadd fdiv fofZ exact].
    rewrite fold_plus, map_length, INR_IZR_INZ. cbn [flt exact]. rewrite Rplus_0_l. reflexivity.
  Qed.

  Theorem C28_averages : forall cfg ec history side te lg hl fuel l r l',
    @EvaluateTrader E cfg ec history side te lg hl fuel l = Done (r, l') -> er_period r <> [] ->
    let ps := er_period r in
    er_avg_gain r = mean (map (@p_final_gain E) ps) /\
    er_avg_base_gain r = mean (map (@p_base_final_gain E) ps) /\
    er_avg_total_executed_orders r = mean (map (fun p => IZR (@r_total_executed_orders E (p_result p))) ps) /\
    er_avg_total_fee r = mean (map (fun p => @r_total_fee E (p_result p)) ps) /\
    ((forall p, In p ps -> 0 < @p_final_gain E p / @p_base_final_gain E p) ->
     0 < er_score r /\
     er_score r ^ List.length ps = product (map (fun p => @p_final_gain E p / @p_base_final_gain E p) ps)).
  Proof.
    intros cfg ec history side te lg hl fuel l r l' H Hne ps.
    apply bind_done in H as ([ps0 l1] & _ & H). apply bind_done in H as (r' & Hr & Er). injection Er as -> ->.
    unfold eval_summary in Hr. apply bind_done in Hr as (sc & Hg & Hr). injection Hr as <-. cbn in Hne. subst ps. cbn [er_period er_avg_gain er_avg_base_gain er_avg_total_executed_orders er_avg_total_fee er_score].
    repeat (split; [apply average_mean; exact Hne|]). intros Hpos.
    unfold GetGeometricAverage in Hg. destruct ps0 as [|p0 ps0]; [congruence|]. apply bind_done in Hg as (u & _ & Hg). injection Hg as <-.
    cbn [dmul ddiv dofZ f2d d2f dpow fdiv exact]. set (q := fun p : @period E => (@p_final_gain E p / @p_base_final_gain E p)%R : R).
    set (L := p0 :: ps0) in *.
    match goal with |- context [fold_left ?f ?k ?x] => replace (fold_left f k x) with (product (map q L))
      by (symmetry; etransitivity; [exact (fold_mult q L 1)|apply Rmult_1_l]) end.
    assert (Hprod : 0 < product (map q L)).
    { clear - Hpos. clearbody L. induction L as [|p L IH]; cbn; [lra|]. apply Rmult_lt_0_compat; [apply Hpos; left; reflexivity|].
      apply IH. intros p' Hp. apply Hpos. right. exact Hp. }
    unfold rpow. rewrite Req_bool_false by lra. split; [apply exp_pos|].
    rewrite <- Rpower_pow by apply exp_pos. rewrite Rpower_mult.
    match goal with |- Rpower _ (1 / IZR ?z * _) = _ => replace (IZR z) with (INR (List.length L)) by (exact (INR_IZR_INZ (List.length L))) end.
    replace (1 / INR (List.length L) * INR (List.length L)) with 1.
    - rewrite Rpower_1; [reflexivity|exact Hprod].
    - field. apply not_0_INR. unfold L. cbn. lia.
  Qed.
End Averages.

(** Without periods all are zero (any machine). *)
Theorem C28_no_periods {M : machine} : forall cfg ec history side te lg hl fuel l r l',
  EvaluateTrader cfg ec history side te lg hl fuel l = Done (r, l') -> er_period r = [] ->
  er_score r = fofZ 0 /\ er_avg_gain r = fofZ 0 /\ er_avg_base_gain r = fofZ 0 /\
  er_avg_total_executed_orders r = fofZ 0 /\ er_avg_total_fee r = fofZ 0.
Proof.
  intros cfg ec history side te lg hl fuel l r l' H Hne.
  apply bind_done in H as ([ps0 l1] & _ & H). apply bind_done in H as (r' & Hr & Er). injection Er as -> ->.
  unfold eval_summary in Hr. apply bind_done in Hr as (sc & Hg & Hr). injection Hr as <-. cbn in Hne. subst ps0.
  cbn in Hg. injection Hg as <-. repeat split.
Qed.

(** The result carries the trader's name and the configurations it was obtained with (any machine). *)
Theorem C28_identified {M : machine} : forall cfg ec history side te lg hl fuel l r l',
  EvaluateTrader cfg ec history side te lg hl fuel l = Done (r, l') ->
  er_name r = te_name te /\ er_account_config r = cfg /\ er_eval_config r = ec.
Proof.
  intros cfg ec history side te lg hl fuel l r l' H.
  apply bind_done in H as ([ps0 l1] & _ & H). apply bind_done in H as (r' & Hr & Er). injection Er as -> ->.
  unfold eval_summary in Hr. apply bind_done in Hr as (sc & Hg & Hr). injection Hr as <-. repeat split.
Qed.

(** ** C29 Buy and hold, bit-exact. *)
Section Hold.
  Context (lm : libm) (as_ : bool).
  Local Notation I := (ieee lm as_).
  Local Open Scope R_scope.

  (** A price between 2^-60 and 2^60. *)
  Definition price_in_range (x : @flt I) : Prop :=
    is_finite x = true /\ bpow radix2 (-60) <= B2R x <= bpow radix2 60.

  (** If a period executed no order and the account started with one base unit and no quote
      balance, its gain is (bit for bit) the gain of the base currency. *)
  Theorem C29_gain : forall cfg side fast te ticks start end_ p,
    start_base_balance cfg = @fofZ I 1 -> start_quote_balance cfg = @fofZ I 0 ->
    @period_reports I cfg side fast te ticks start end_ p -> ticks <> [] ->
    (forall t, In t ticks -> price_in_range (close t)) ->
    r_total_executed_orders (p_result p) = 0%Z ->
    p_final_gain p = p_base_final_gain p /\ @fdiv I (p_final_gain p) (p_base_final_gain p) = @fofZ I 1.
  Proof.
    intros cfg side fast te ticks start end_ p Hb Hq (_ & _ & Hr & Hg & Hbg) Hne Hpr Hx.
    destruct ticks as [|first rest]; [congruence|].
    unfold run_quietly, omap in Hr. apply bind_done in Hr as ([res l'] & Hr & E). cbn in E. injection E as E. subst res.
    destruct (execute_unchanged cfg side fast te null_logger false first rest tt _ _ Hr Hx) as (_ & _ & Ev).
    assert (Pr : r_start_price (p_result p) = close first /\ r_end_price (p_result p) = close (List.last (first :: rest) first) /\
                 r_start_value (p_result p) = @fadd I (start_quote_balance cfg) (@fmul I (r_start_price (p_result p)) (start_base_balance cfg))).
    { unfold ExecuteTrader in Hr. apply bind_done in Hr as (s0 & _ & Hr). apply bind_done in Hr as (s & _ & Hr).
      injection Hr as Hr _. rewrite <- Hr. repeat split. }
    destruct Pr as (P1 & P2 & P3). rewrite Hb, Hq in Ev, P3. cbn [fadd fmul fofZ ieee] in Ev, P3.
    assert (M1 : price_in_range (r_start_price (p_result p))) by (rewrite P1; apply Hpr; left; reflexivity).
    assert (M2 : price_in_range (r_end_price (p_result p))).
    { rewrite P2. apply Hpr. destruct (exists_last (l := first :: rest) ltac:(discriminate)) as (l0 & a & El). rewrite El, last_last. apply in_or_app. right. left. reflexivity. }
    pose proof (bpow_gt_0 radix2 (-60)).
    destruct M1 as [F1 B1], M2 as [F2 B2].
    rewrite mul_one, zero_add in Ev by (auto; cbn [flt ieee] in *; lra).
    rewrite mul_one, zero_add in P3 by (auto; cbn [flt ieee] in *; lra).
    rewrite Ev, P3 in Hg. split; [rewrite Hg, Hbg; reflexivity|].
    rewrite Hg, Hbg. cbn [fdiv ieee fofZ].
    destruct (quotient_moderate (r_end_price (p_result p)) (r_start_price (p_result p))) as [Fq Pq]; [split; assumption|split; assumption|].
    apply div_self; assumption.
  Qed.

  (** The score of such an evaluation is exactly 1.  std::pow(1, y) = 1 is guaranteed by the
      C standard (F.10.4.4). *)
  Theorem C29_score : forall cfg ec history side te lg hl fuel l r l',
    (forall y, libm_pow lm (f64_of_Z 1) y = f64_of_Z 1) ->
    start_base_balance cfg = @fofZ I 1 -> start_quote_balance cfg = @fofZ I 0 ->
    ordered timestamp_sec history -> (0 < evaluation_period_months ec)%Z -> (0 < ec_start_timestamp_sec ec)%Z ->
    (forall t, In t history -> price_in_range (close t)) ->
    @EvaluateTrader I cfg ec history side te lg hl fuel l = Done (r, l') ->
    er_period r <> [] -> (forall p, In p (er_period r) -> r_total_executed_orders (p_result p) = 0%Z) ->
    (forall p, In p (er_period r) -> p_final_gain p = p_base_final_gain p) /\ er_score r = @fofZ I 1.
  Proof.
    intros cfg ec history side te lg hl fuel l r l' Hpow Hb Hq Ho Hp Hs Hpr H Hne Hx.
    destruct (C22_periods cfg ec history side te lg hl fuel l r l' Ho Hp (or_introl Hs) H) as (K & _ & _ & F).
    assert (G : forall p, In p (er_period r) -> p_final_gain p = p_base_final_gain p /\ @fdiv I (p_final_gain p) (p_base_final_gain p) = @fofZ I 1).
    { intros p Hin. apply In_nth_error in Hin as [i Hi].
      assert (exists k, In k (filter (fun k => match ticks_in history (window_start ec k) (window_end ec k) with [] => false | _ => true end) (offsets K)) /\
        period_reports cfg side (fast_eval ec) te (ticks_in history (window_start ec k) (window_end ec k)) (window_start ec k) (window_end ec k) p) as (k & Hk & R).
      { clear - F Hi. remember (filter _ _) as ks. clear Heqks. revert i Hi. induction F as [|k p' ks ps R F IH]; intros i Hi; [destruct i; discriminate|].
        destruct i; cbn in Hi; [injection Hi as ->; exists k; split; [left; reflexivity|exact R]|].
        destruct (IH i Hi) as (k' & Hk' & R'). exists k'. split; [right; exact Hk'|exact R']. }
      apply filter_In in Hk as [_ Hk].
      apply (C29_gain cfg side (fast_eval ec) te _ _ _ p Hb Hq R).
      - intros E. rewrite E in Hk. discriminate.
      - intros t Ht. apply Hpr. unfold ticks_in in Ht. apply filter_In in Ht as [Ht _]. exact Ht.
      - apply Hx. eapply nth_error_In; eauto. }
    split; [intros p Hin; apply G; exact Hin|].
    apply bind_done in H as ([ps0 l1] & _ & H). apply bind_done in H as (r' & Hr & Er). injection Er as -> ->.
    unfold eval_summary in Hr. apply bind_done in Hr as (sc & Hg & Hr). injection Hr as <-. cbn [er_period er_score] in *.
    unfold GetGeometricAverage in Hg. destruct ps0 as [|p0 ps0]; [congruence|]. apply bind_done in Hg as (u & _ & Hg). apply Done_eq in Hg. subst sc.
    assert (Fd : fold_left (fun mul e => @dmul I mul (@f2d I (@fdiv I (p_final_gain e) (p_base_final_gain e)))) (p0 :: ps0) (@dofZ I 1) = f64_of_Z 1).
    { revert G. generalize (p0 :: ps0). clear. induction l as [|p l IH]; intros G; [reflexivity|]. cbn [fold_left].
      rewrite (proj2 (G p (or_introl eq_refl))).
      replace (@dmul I (@dofZ I 1) (@f2d I (@fofZ I 1))) with (@dofZ I 1).
      - apply IH. intros p' Hp'. apply G. right. exact Hp'.
      - cbn [dmul dofZ f2d fofZ ieee]. apply B2SF_inj. vm_compute. reflexivity. }
    rewrite Fd. cbn [dpow ieee d2f]. rewrite Hpow. cbn [fofZ]. apply B2SF_inj. vm_compute. reflexivity.
  Qed.
End Hold.

(** ** Examples: three ticks in May, June and August 2017, a trader that never trades,
    windows of one month from May 1 to September 1. *)
Section Examples.
  Context {lm : libm} {as_ : bool}.
  Local Notation I := (ieee lm as_).
  Definition en (z : Z) : @flt I := f32_of_Z z.
  Definition e_free : @fee_config I := @FeeConfig I (en 0) (en 0) (en 0).
  Definition e_config : @account_config I :=
    @AccountConfig I (en 1) (en 0) (en 1) (en 1) e_free e_free e_free (en 1) (en 0).
  Definition e_tick (t : Z) (p : @flt I) : @ohlc_tick I := @OhlcTick I t p p p p (en 5).
  Definition e_history : list (@ohlc_tick I) :=
    [e_tick 1493800000 (en 100); e_tick 1496300000 (en 150); e_tick 1496400000 (en 170); e_tick 1502000000 (en 90)].
  Definition e_holder : @trader_emitter I :=
    @TraderEmitter I "holder" unit tt (fun _ _ _ _ _ => Done (tt, [])) (fun _ => EmptyString).
  Definition e_eval (months : Z) : evaluation_config :=
    {| ec_start_timestamp_sec := 1493596800; ec_end_timestamp_sec := 1504224000; evaluation_period_months := months; fast_eval := false |}.
  Definition e_periods (history : list (@ohlc_tick I)) (months : Z) (fuel : nat) : outcome (list (Z * Z * Z)) :=
    omap (fun x => map (fun p => (p_start_timestamp_sec p, p_end_timestamp_sec p, r_total_executed_orders (p_result p))) (er_period (fst x)))
         (@EvaluateTrader I e_config (e_eval months) history None e_holder null_logger false fuel tt).
  Definition e_batch (sched : list nat) : outcome (list nat) :=
    omap (map (fun r => List.length (er_period r)))
         (@EvaluateBatchOfTraders I e_config (e_eval 1) e_history None [e_holder; e_holder] sched).
  (** 2^-100 and 2^100 *)
  Definition e_tiny : @flt I := @fdiv I (en 1) (en (2 ^ 100)).
  Definition e_wild : list (@ohlc_tick I) := [e_tick 1493800000 e_tiny; e_tick 1493900000 (en (2 ^ 100))].
End Examples.

Section ExampleProofs.
  Context (lm : libm) (as_ : bool).
  Local Notation I := (ieee lm as_).

  (** The hypotheses of C22, C23 and C29 hold and there are three periods (July has no
      ticks), none with executed orders. *)
  Lemma C22_ex :
    ordered timestamp_sec (@e_history lm as_) /\
    e_periods (@e_history lm as_) 1 6 = Done [(1493596800, 1496275200, 0); (1496275200, 1498867200, 0); (1501545600, 1504224000, 0)]%Z.
  Proof.
    split.
    - intros i j t t' E1 E2 L. unfold e_history in *.
      destruct i as [|[|[|[|[|?]]]]], j as [|[|[|[|[|?]]]]]; cbn in E1, E2; try lia; try discriminate;
        injection E1 as <-; injection E2 as <-; cbn; lia.
    - clear; destruct as_; vm_compute; reflexivity.
  Qed.

  Lemma C29_ex : forall t, In t (@e_history lm as_) -> price_in_range lm as_ (close t).
  Proof.
    assert (K : forall z, (1 <= z <= 1000)%Z -> price_in_range lm as_ (en z)).
    { intros z Hz. destruct (ofZ_finite z ltac:(lia)) as [F E]. split; [exact F|].
      change (@B2R 24 128 (en z)) with (B2R (f32_of_Z z)). rewrite E.
      replace (bpow radix2 60) with (IZR (2 ^ 60)) by (rewrite <- (IZR_Zpower radix2) by lia; reflexivity).
      split; [|apply IZR_le; lia]. apply Rle_trans with 1%R; [|apply IZR_le; lia].
      change 1%R with (bpow radix2 0). apply bpow_le. lia. }
    intros t Ht. cbn [In e_history] in Ht. repeat destruct Ht as [<-|Ht]; try contradiction; cbn [close e_tick]; apply K; lia.
  Qed.

  (** The whole range as one period; two tasks under different schedules. *)
  Lemma C24_ex : e_periods (@e_history lm as_) 0 1 = Done [(1493596800, 1504224000, 0)]%Z.
  Proof. clear; destruct as_; vm_compute; reflexivity. Qed.

  Lemma C27_ex :
    @e_batch lm as_ [0; 0; 1; 1; 0; 0; 1; 1; 0; 0; 1; 1] = Done [3; 3] /\
    @e_batch lm as_ [1; 1; 1; 1; 1; 0; 0; 0; 0; 0; 1; 0] = Done [3; 3] /\
    @e_batch lm as_ [1; 1; 1; 1; 1; 0; 0] = Diverged.
  Proof. clear; destruct as_; vm_compute; auto. Qed.
End ExampleProofs.

(** Without a bound on the prices C29 is false: from 2^-100 to 2^100 the gain overflows, the
    ratio of the gains is not a number, and the evaluation aborts. *)
Theorem C29_extreme_prices_refuted : forall lm,
  (forall t, In t (@e_wild lm true) -> is_finite (close t) = true /\ (0 < B2R (close t))%R) /\
  e_periods (@e_wild lm true) 1 9 = AssertFail.
Proof.
  intros lm. split; [|vm_compute; reflexivity].
  intros t Ht. cbn [In e_wild] in Ht.
  assert (Pos : forall x : f32, is_finite x = true -> Bltb (f32_of_Z 0) x = true -> (0 < B2R x)%R).
  { intros x F H. destruct (ofZ_finite 0 ltac:(lia)) as [F0 E0]. apply (AccountIEEE.fltb_true _ _ F0 F) in H. rewrite E0 in H. exact H. }
  destruct Ht as [<-|[<-|[]]]; (split; [vm_compute; reflexivity|apply Pos; vm_compute; reflexivity]).
Qed.

Print Assumptions C22_windows.
Print Assumptions C23_terminates.
Print Assumptions C27_batch.
Print Assumptions C28_averages.
Print Assumptions C29_score.
