(** C90: a batch with preemptive threads, deferred tasks and a main thread. *)
From Coq Require Import ZArith Bool List Lia String.
From Verif.Model Require Import Outcome Machine Types Account History SideInput Indicators TimeUtil Eval Batch MachineIEEE.
From Verif.Spec Require Import BatchSpec.
From Verif.Proofs Require Import Base BatchProofs ThreadProofs ProcessProofs.
From Verif.Properties Require Import EvalProps.
Import ListNotations.

Section BatchProps.
  Context {M : machine}.
  Context (cfg : account_config) (ec : evaluation_config) (history : list ohlc_tick) (side : option side_input).

  (** Evaluating the trader on its own, without a logger, has the outcome o. *)
  Definition evaluates_to (te : trader_emitter) (o : outcome evaluation_result) : Prop :=
    exists n, forall n', (n <= n')%nat ->
      omap fst (EvaluateTrader cfg ec history side te null_logger false n' tt) = o.

  Local Notation run := (batch_run cfg ec history side).

  Lemma ends_evaluates te o : te_ends cfg ec history side te o -> evaluates_to te o.
  Proof. intros [m H]. exact (thread_ends_alone cfg ec history side te m o H). Qed.

  Lemma evaluates_ends te r : evaluates_to te (Done r) -> te_ends cfg ec history side te (Done r).
  Proof.
    intros [n H]. specialize (H n (le_n n)). unfold te_ends. rewrite <- H. apply alone_thread_ends.
    unfold alone. rewrite H. discriminate.
  Qed.

  Lemma evaluates_unique te o1 o2 : evaluates_to te o1 -> evaluates_to te o2 -> o1 = o2.
  Proof.
    intros [n1 H1] [n2 H2]. rewrite <- (H1 (Nat.max n1 n2) ltac:(lia)). apply H2. lia.
  Qed.

  (** However the threads are scheduled, preempted and deferred: if the call comes to an
      end, it returns the results of the traders evaluated on their own, in
      the order of the emitters, or it ends as one of the traders ends on its own. *)
  Theorem C90_outcome : forall emitters sched o,
    run sched (batch_start emitters) = Over o ->
    match o with
    | Done results => Forall2 (fun te r => evaluates_to te (Done r)) emitters results
    | AssertFail => exists te, In te emitters /\ evaluates_to te AssertFail
    | Undefined => exists te, In te emitters /\ evaluates_to te Undefined
    | Thrown => exists te, In te emitters /\ evaluates_to te Thrown
    | Diverged => False
    end.
  Proof.
    intros es sched o H. pose proof (run_inv cfg ec history side es sched _ (start_inv cfg ec history side es)) as G.
    rewrite H in G. cbn [invS] in G. destruct o as [rs| | | |]; cbn [good] in G; [|destruct G as (te & Hin & E); exists te; split; [exact Hin|apply ends_evaluates; exact E]..|exact G].
    induction G as [|te r es' rs' E G IH]; constructor; [apply ends_evaluates; exact E|].
    clear - G. induction G as [|te r es' rs' E G IH]; constructor; [apply ends_evaluates; exact E|exact IH].
  Qed.

  (** If every trader on its own evaluates to a result, no schedule can make the call end in any other way. *)
  Theorem C90_same_results : forall emitters results sched o,
    Forall2 (fun te r => evaluates_to te (Done r)) emitters results ->
    run sched (batch_start emitters) = Over o -> o = Done results.
  Proof.
    intros es rs sched o F H. pose proof (C90_outcome es sched o H) as K.
    assert (Bad : forall (te : trader_emitter) (b : outcome evaluation_result), In te es -> evaluates_to te b -> exists r, b = Done r).
    { intros te b Hin Hb. clear - F Hin Hb. induction F as [|t r es' rs' E F IH]; [contradiction|].
      destruct Hin as [->|Hin]; [|exact (IH Hin)]. exists r. exact (evaluates_unique _ _ _ Hb E). }
    destruct o as [rs'| | | |].
    - f_equal. clear - F K. revert rs' K. induction F as [|t r es' rs E F IH]; intros rs' K; inversion K; subst; [reflexivity|].
      f_equal; [|apply IH; assumption].
      match goal with K : evaluates_to t (Done ?y) |- _ => pose proof (evaluates_unique _ _ _ K E) as U end. congruence.
    - destruct K as (te & Hin & E). destruct (Bad _ _ Hin E) as [r Hr]. discriminate.
    - destruct K as (te & Hin & E). destruct (Bad _ _ Hin E) as [r Hr]. discriminate.
    - destruct K as (te & Hin & E). destruct (Bad _ _ Hin E) as [r Hr]. discriminate.
    - contradiction.
  Qed.

  Lemma all_end emitters results :
    Forall2 (fun te r => evaluates_to te (Done r)) emitters results ->
    forall te, In te emitters -> exists r, te_ends cfg ec history side te (Done r).
  Proof.
    intros F. induction F as [|t r es rs E F IH]; intros te Hin; [contradiction|].
    destruct Hin as [->|Hin]; [exists r; apply evaluates_ends; exact E|exact (IH te Hin)].
  Qed.

  (** And the call does return: under every schedule in which the main thread and every
      task get a turn again and again ... *)
  Theorem C90_returns : forall emitters results f,
    Forall2 (fun te r => evaluates_to te (Done r)) emitters results ->
    fair (List.length emitters) f ->
    exists k, run (first_decisions f k) (batch_start emitters) = Over (Done results).
  Proof.
    intros es rs f F Hf. destruct (start_meas cfg ec history side es (all_end es rs F)) as [n Hn].
    destruct (fair_ends cfg ec history side es f Hf n 0 Hn) as (k & o & E). exists k. rewrite E.
    f_equal. apply (C90_same_results es rs _ _ F E).
  Qed.

  (** ... and whatever has been scheduled so far, there is a way to go on (no deadlock). *)
  Theorem C90_no_deadlock : forall emitters results sched,
    Forall2 (fun te r => evaluates_to te (Done r)) emitters results ->
    exists more, run (sched ++ more) (batch_start emitters) = Over (Done results).
  Proof.
    intros es rs sched F. destruct (start_meas cfg ec history side es (all_end es rs F)) as [n Hn].
    assert (Run : forall s st m, measS cfg ec history side st m -> exists m', measS cfg ec history side (run s st) m').
    { intros s. induction s as [|d s IH]; intros st m Hm; [exists m; exact Hm|]. cbn.
      destruct (step_meas cfg ec history side d st m Hm) as [E|(m' & _ & Hm')]; [|exact (IH _ _ Hm')].
      unfold batch_run in IH. rewrite E. exact (IH _ _ Hm). }
    destruct (Run sched _ _ Hn) as [m Hm].
    assert (Fin : forall m st, measS cfg ec history side st m -> exists more o, run more st = Over o).
    { clear. intros m. induction m as [m IH] using lt_wf_ind. intros [p|o] H; [|exists [], o; reflexivity].
      destruct (enabled cfg ec history side p m H) as [Hb|(i & _ & Hi)].
      - destruct (Hb true) as (m' & L & Hm'). destruct (IH m' L _ Hm') as (more & o & E). exists (MainTurn true :: more), o. exact E.
      - destruct Hi as (m' & L & Hm'). destruct (IH m' L _ Hm') as (more & o & E). exists (TaskTurn i :: more), o. exact E. }
    destruct (Fin m _ Hm) as (more & o & E). exists more. unfold batch_run in *. rewrite fold_left_app. rewrite E. f_equal.
    apply (C90_same_results es rs (sched ++ more) _ F). unfold batch_run. rewrite fold_left_app. exact E.
  Qed.

  (** A trader that aborts on its own never lets the call return. *)
  Theorem C90_abort : forall emitters te sched o,
    In te emitters -> evaluates_to te AssertFail -> run sched (batch_start emitters) = Over o ->
    forall results, o <> Done results.
  Proof.
    intros es te sched o Hin Ha H rs ->. pose proof (C90_outcome es sched _ H) as K. cbn in K.
    clear - Hin Ha K. induction K as [|t r es' rs' E K IH]; [contradiction|].
    destruct Hin as [->|Hin]; [|exact (IH Hin)]. pose proof (evaluates_unique _ _ _ Ha E). discriminate.
  Qed.

  (** The interleaving of whole iterations (C27) and this model agree. *)
  Theorem C90_coarse : forall emitters sched sched' results o,
    EvaluateBatchOfTraders cfg ec history side emitters sched = Done results ->
    run sched' (batch_start emitters) = Over o -> o = Done results.
  Proof.
    intros es s1 s2 rs o H1 H2. apply (C90_same_results es rs s2 o); [|exact H2].
    exact (C27_any_schedule cfg ec history side es s1 rs H1).
  Qed.
End BatchProps.

(** Two traders that hold, under the months of [EvalProps.e_eval]: one deferred, one running
    while the main thread waits for the first; a round-robin schedule is fair. *)
Section Examples.
  Context (lm : libm) (as_ : bool).
  Local Notation I := (ieee lm as_).

  Definition show_over (st : @batch_state I) : option (outcome (list nat)) :=
    match st with
    | Over o => Some (omap (map (fun r => List.length (er_period r))) o)
    | Alive _ => None
    end.

  Definition round_robin (i : nat) : decision := match (i mod 3)%nat with O => MainTurn (Nat.even i) | S k => TaskTurn k end.

  Lemma C90_ex_fair : fair 2 round_robin.
  Proof.
    split.
    - intros i. exists (3 * i)%nat, (Nat.even (3 * i)). split; [lia|]. unfold round_robin.
      rewrite Nat.mul_comm, Nat.mod_mul by lia. reflexivity.
    - intros k i L. exists (1 + k + i * 3)%nat. split; [lia|]. unfold round_robin.
      rewrite Nat.mod_add by lia. destruct k as [|[|k]]; [reflexivity|reflexivity|lia].
  Qed.

End Examples.

Section ExampleRun.
  Context (lm : libm) (as_ : bool).
  Local Notation I := (ieee lm as_).
  Lemma C90_ex_run :
    show_over lm as_ (batch_run e_config (e_eval 1) e_history None (first_decisions round_robin 120) (batch_start [e_holder; e_holder])) = Some (Done [3; 3]%nat) /\
    show_over lm as_ (batch_run e_config (e_eval 1) e_history None (first_decisions round_robin 60) (batch_start [e_holder; e_holder])) = None /\
    show_over lm as_ (batch_run e_config (e_eval 1) e_history None (repeat (MainTurn true) 100) (batch_start [e_holder; e_holder])) = Some (Done [3; 3]%nat).
  Proof. clear; destruct as_; vm_compute; auto. Qed.
End ExampleRun.

Print Assumptions C90_outcome.
Print Assumptions C90_same_results.
Print Assumptions C90_returns.
Print Assumptions C90_no_deadlock.
Print Assumptions C90_abort.
