(** One thread of a batch: its steps follow EvaluateTrader. *)
From Coq Require Import ZArith Bool List Lia String.
From Verif.Model Require Import Outcome Machine Types Account History SideInput Indicators TimeUtil Eval Batch.
From Verif.Proofs Require Import Base BatchProofs.
Import ListNotations.

Section Thread.
  Context {M : machine}.
  Context (cfg : account_config) (ec : evaluation_config) (history : list ohlc_tick)
          (side : option side_input) (te : trader_emitter).
  Local Notation step := (thread_step cfg ec history side te).
  Local Notation tick := (tick_step cfg side (fast_eval ec) te null_logger false).

  Fixpoint tsteps (n : nat) (t : thread te) : thread te :=
    match n with O => t | S n' => tsteps n' (step t) end.

  Lemma tsteps_plus a b t : tsteps (a + b) t = tsteps b (tsteps a t).
  Proof. revert t. induction a as [|a IH]; intros t; [reflexivity|]. cbn. apply IH. Qed.

  Lemma tsteps_ended n r : tsteps n (Ended te r) = Ended te r.
  Proof. induction n as [|n IH]; [reflexivity|exact IH]. Qed.

  Lemma tsteps_S n t : tsteps (S n) t = step (tsteps n t).
  Proof. replace (S n) with (n + 1)%nat by lia. rewrite tsteps_plus. reflexivity. Qed.

  (** The orders of one tick. *)
  Lemma orders_steps w x t sg prev rest todo : forall a n (l : lg_state null_logger),
    exists m, tsteps m (Orders te w x t sg prev a n todo rest) =
      or_fail te (foldM (order_step cfg null_logger false t) (a, n, l) todo)
        (fun '(a', n', _) => Orders te w x t sg prev a' n' [] rest).
  Proof.
    induction todo as [|o todo IH]; intros a n l.
    - exists 0%nat. reflexivity.
    - cbn [foldM]. unfold order_step at 1.
      destruct (ExecuteOrder cfg o t a) as [[ok a']| | | |] eqn:E; cbn [bind];
        try (exists 1%nat; cbn [tsteps thread_step]; rewrite E; reflexivity).
      destruct (IH a' (if ok then n + 1 else n)%Z l) as [m Hm].
      exists (S m). cbn [tsteps thread_step]. rewrite E. cbn [or_fail]. rewrite Hm.
      destruct ok; reflexivity.
  Qed.

  Lemma xlog_tt (x : exec_state te null_logger) : x_log te null_logger x = tt.
  Proof. destruct (x_log te null_logger x). reflexivity. Qed.

  (** One tick. *)
  Lemma tick_steps w x t rest :
    exists m, tsteps (S m) (Ticks te w x (t :: rest)) = or_fail te (tick x t) (fun x' => Ticks te w x' rest).
  Proof.
    unfold tick_step.
    destruct (side_input_part side t (x_signals te null_logger x) (x_prev_index te null_logger x)) as [[sg prev]| | | |] eqn:Es;
      cbn [bind]; try (exists 0%nat; cbn [tsteps thread_step]; rewrite Es; reflexivity).
    destruct (orders_steps w x t sg prev rest (x_orders te null_logger x) (x_account te null_logger x) (x_executed te null_logger x) (x_log te null_logger x)) as [m Hm].
    unfold log_if; cbv zeta iota.
    destruct (foldM (order_step cfg null_logger false t) (x_account te null_logger x, x_executed te null_logger x, x_log te null_logger x) (x_orders te null_logger x))
      as [[[a n] l]| | | |]; cbn [bind or_fail] in *;
      try (exists m; cbn [tsteps thread_step]; rewrite Es; cbn [or_fail]; exact Hm).
    assert (Pre : tsteps (S m) (Ticks te w x (t :: rest)) = Orders te w x t sg prev a n [] rest)
      by (cbn [tsteps thread_step]; rewrite Es; cbn [or_fail]; exact Hm).
    assert (El : x_log te null_logger x = l) by (rewrite xlog_tt; destruct l; reflexivity).
    destruct (feqb (volume t) (fofZ 0)) eqn:Ev.
    { exists (m + 1)%nat. change (S (m + 1)) with (S m + 1)%nat. rewrite tsteps_plus, Pre. cbn [tsteps thread_step].
      unfold update_step. rewrite Ev, El. reflexivity. }
    destruct (te_update te (x_trader te null_logger x) t sg (base_balance a) (quote_balance a)) as [[ts os]| | | |] eqn:Eu;
      cbn [bind or_fail];
      try (exists (m + 1)%nat; change (S (m + 1)) with (S m + 1)%nat; rewrite tsteps_plus, Pre; cbn [tsteps thread_step];
           unfold update_step; rewrite Ev, Eu; reflexivity).
    destruct (fast_eval ec) eqn:Ef; cbn [bind or_fail].
    { exists (m + 1)%nat. change (S (m + 1)) with (S m + 1)%nat. rewrite tsteps_plus, Pre. cbn [tsteps thread_step].
      unfold update_step. rewrite Ev, Eu. cbn [or_fail]. rewrite Ef, El. reflexivity. }
    destruct (vol_Update kSecondsPerDay (x_base_vol te null_logger x) t (fofZ 1) (fofZ 0)) as [bv| | | |] eqn:Eb;
      cbn [bind or_fail];
      try (exists (m + 2)%nat; change (S (m + 2)) with (S m + 2)%nat; rewrite tsteps_plus, Pre; cbn [tsteps thread_step];
           unfold update_step; rewrite Ev, Eu; cbn [or_fail]; rewrite Ef; cbn [thread_step x_base_vol]; rewrite Eb; reflexivity).
    destruct (vol_Update kSecondsPerDay (x_trader_vol te null_logger x) t (base_balance a) (quote_balance a)) as [tv| | | |] eqn:Et;
      cbn [bind or_fail];
      exists (m + 3)%nat; change (S (m + 3)) with (S m + 3)%nat; rewrite tsteps_plus, Pre; cbn [tsteps thread_step];
      unfold update_step; rewrite Ev, Eu; cbn [or_fail]; rewrite Ef; cbn [thread_step x_base_vol]; rewrite Eb;
      cbn [or_fail thread_step x_trader_vol x_account]; rewrite Et; cbn [or_fail x_signals x_prev_index x_orders x_executed x_base_vol x_trader x_log x_account];
      rewrite ?El; reflexivity.
  Qed.

  (** All the ticks of a window. *)
  Lemma ticks_steps w rest : forall x,
    exists m, tsteps (S m) (Ticks te w x rest) =
      or_fail te (foldM tick x rest) (fun x' =>
        Closing te (w_offset w) (w_periods w) (w_start w) (w_end w)
                (exec_result cfg (fast_eval ec) te null_logger x' (w_first w) (w_last w))).
  Proof.
    induction rest as [|t rest IH]; intros x.
    - exists 0%nat. reflexivity.
    - cbn [foldM]. destruct (tick_steps w x t rest) as [m Hm].
      destruct (tick x t) as [x'| | | |]; cbn [bind or_fail] in *; try (exists m; exact Hm).
      destruct (IH x') as [m' Hm']. exists (m + S m')%nat.
      change (S (m + S m')) with (S m + S m')%nat. rewrite tsteps_plus, Hm. exact Hm'.
  Qed.

  (** One iteration of the evaluation loop, as the coarse model makes it. *)
  Definition after_iteration (o : outcome (eval_state null_logger + (list period * lg_state null_logger))) : thread te :=
    or_fail te o (fun r =>
      match r with
      | inl (k, ps, _) => Top te k ps
      | inr (ps, _) => Ended te (eval_summary cfg ec te ps)
      end).

  Lemma iteration_steps k ps :
    exists m, tsteps (S m) (Top te k ps) = after_iteration (eval_step cfg ec history side te null_logger false (k, ps, tt)).
  Proof.
    unfold eval_step. destruct (eval_window ec k) as [start end_] eqn:Ew.
    destruct (end_ >? ec_end_timestamp_sec ec)%Z eqn:Ee.
    { exists 0%nat. cbn [tsteps thread_step]. unfold top_step. rewrite Ew, Ee. reflexivity. }
    destruct (HistorySubset timestamp_sec history start end_) as [b e] eqn:Eh.
    destruct (b =? e)%nat eqn:Eb.
    { exists 0%nat. cbn [tsteps thread_step]. unfold top_step. rewrite Ew, Ee, Eh, Eb. reflexivity. }
    destruct (e <? b)%nat eqn:El.
    { exists 0%nat. cbn [tsteps thread_step]. unfold top_step. rewrite Ew, Ee, Eh, Eb, El. reflexivity. }
    assert (Close : forall res, step (Closing te k ps start end_ res) = after_iteration
      (do '(result, l) <- Done (res, tt);
       assert_ (fltb (fofZ 0) (r_start_value result));;
       assert_ (fltb (fofZ 0) (r_start_price result) && fltb (fofZ 0) (r_end_price result));;
       (let p := {| p_start_timestamp_sec := start; p_end_timestamp_sec := end_; p_result := result;
                    p_final_gain := fdiv (r_end_value result) (r_start_value result);
                    p_base_final_gain := fdiv (r_end_price result) (r_start_price result) |} in
        if (evaluation_period_months ec =? 0)%Z then Done (inr (ps ++ [p], l)) else Done (inl ((k + 1)%Z, ps ++ [p], l))))).
    { intros res. cbn [thread_step bind]. unfold closing_step, after_iteration.
      destruct (assert_ _) as [[]| | | |]; cbn [bind or_fail]; try reflexivity.
      destruct (assert_ _) as [[]| | | |]; cbn [bind or_fail]; try reflexivity.
      destruct (evaluation_period_months ec =? 0)%Z; reflexivity. }
    unfold ExecuteTrader. destruct (range history b e) as [|first more] eqn:Er.
    { exists 1%nat. cbn [tsteps]. rewrite <- Close. f_equal. cbn [thread_step]. unfold top_step. rewrite Ew, Ee, Eh, Eb, El, Er. reflexivity. }
    destruct (exec_init cfg te null_logger tt) as [x0| | | |] eqn:Ei; cbn [bind];
      try (exists 0%nat; cbn [tsteps thread_step]; unfold top_step; rewrite Ew, Ee, Eh, Eb, El, Er, Ei; reflexivity).
    set (w := {| w_offset := k; w_periods := ps; w_start := start; w_end := end_;
                 w_first := first; w_last := last (first :: more) first |}).
    assert (Pre : tsteps 1 (Top te k ps) = Ticks te w x0 (first :: more))
      by (cbn [tsteps thread_step]; unfold top_step; rewrite Ew, Ee, Eh, Eb, El, Er, Ei; reflexivity).
    destruct (ticks_steps w (first :: more) x0) as [m Hm].
    destruct (foldM tick x0 (first :: more)) as [x'| | | |]; cbn [bind or_fail] in *;
      try (exists (S m); change (S (S m)) with (1 + S m)%nat; rewrite tsteps_plus, Pre; exact Hm).
    exists (S m + 1)%nat. change (S (S m + 1)) with (1 + S m + 1)%nat. rewrite !tsteps_plus, Pre, Hm. cbn [tsteps].
    cbn [w w_offset w_periods w_start w_end w_first w_last]. rewrite Close. cbn [bind]. rewrite xlog_tt. reflexivity.
  Qed.

  Local Notation loop := (loop_result cfg ec history side te).

  (** A thread that ends has the outcome of the loop. *)
  Lemma thread_ends_loop : forall m k ps r,
    tsteps m (Top te k ps) = Ended te r -> exists n, forall n', (n <= n')%nat -> loop n' (k, ps, tt) = r.
  Proof.
    induction m as [m IH] using lt_wf_ind. intros k ps r H.
    destruct (iteration_steps k ps) as [m1 H1].
    destruct (eval_step cfg ec history side te null_logger false (k, ps, tt)) as [[[[k' ps'] []]|[ps' l]]| | | |] eqn:E;
      unfold after_iteration in H1; cbn [or_fail] in H1.
    - destruct (le_lt_dec (S m1) m) as [Hle|Hlt].
      + replace m with (S m1 + (m - S m1))%nat in H by lia. rewrite tsteps_plus, H1 in H.
        destruct (IH (m - S m1)%nat ltac:(lia) _ _ _ H) as [n Hn]. exists (S n). intros [|n'] Hle'; [lia|].
        unfold loop_result. cbn [eval_loop]. rewrite E. cbn [bind]. apply Hn. lia.
      + exfalso. replace (S m1) with (m + (S m1 - m))%nat in H1 by lia. rewrite tsteps_plus, H, tsteps_ended in H1. discriminate.
    - exists 1%nat. intros [|n'] Hle'; [lia|]. unfold loop_result. cbn [eval_loop]. rewrite E. cbn [bind].
      pose proof (tsteps_plus m (S m1) (Top te k ps)) as A. pose proof (tsteps_plus (S m1) m (Top te k ps)) as B.
      rewrite Nat.add_comm in B. rewrite A, H, H1, !tsteps_ended in B. congruence.
    - exists 1%nat. intros [|n'] Hle'; [lia|]. unfold loop_result. cbn [eval_loop]. rewrite E. cbn [bind].
      pose proof (tsteps_plus m (S m1) (Top te k ps)) as A. pose proof (tsteps_plus (S m1) m (Top te k ps)) as B.
      rewrite Nat.add_comm in B. rewrite A, H, H1, !tsteps_ended in B. congruence.
    - exists 1%nat. intros [|n'] Hle'; [lia|]. unfold loop_result. cbn [eval_loop]. rewrite E. cbn [bind].
      pose proof (tsteps_plus m (S m1) (Top te k ps)) as A. pose proof (tsteps_plus (S m1) m (Top te k ps)) as B.
      rewrite Nat.add_comm in B. rewrite A, H, H1, !tsteps_ended in B. congruence.
    - exists 1%nat. intros [|n'] Hle'; [lia|]. unfold loop_result. cbn [eval_loop]. rewrite E. cbn [bind].
      pose proof (tsteps_plus m (S m1) (Top te k ps)) as A. pose proof (tsteps_plus (S m1) m (Top te k ps)) as B.
      rewrite Nat.add_comm in B. rewrite A, H, H1, !tsteps_ended in B. congruence.
    - exists 1%nat. intros [|n'] Hle'; [lia|]. unfold loop_result. cbn [eval_loop]. rewrite E. cbn [bind].
      pose proof (tsteps_plus m (S m1) (Top te k ps)) as A. pose proof (tsteps_plus (S m1) m (Top te k ps)) as B.
      rewrite Nat.add_comm in B. rewrite A, H, H1, !tsteps_ended in B. congruence.
  Qed.

  (** A loop that ends is followed by the thread to its end. *)
  Lemma loop_thread_ends : forall n k ps,
    loop n (k, ps, tt) <> Diverged -> exists m, tsteps m (Top te k ps) = Ended te (loop n (k, ps, tt)).
  Proof.
    induction n as [|n IH]; intros k ps H; [exfalso; apply H; reflexivity|].
    destruct (iteration_steps k ps) as [m1 H1]. unfold loop_result in *. cbn [eval_loop] in *.
    destruct (eval_step cfg ec history side te null_logger false (k, ps, tt)) as [[[[k' ps'] []]|[ps' l]]| | | |] eqn:E;
      unfold after_iteration in H1; cbn [or_fail bind] in *; try (exists (S m1); exact H1).
    destruct (IH k' ps' H) as [m Hm]. exists (S m1 + m)%nat. rewrite tsteps_plus, H1. exact Hm.
  Qed.

  Lemma thread_ends_alone m r :
    tsteps m (Top te 0%Z []) = Ended te r -> exists n, forall n', (n <= n')%nat -> alone cfg ec history side te n' = r.
  Proof. intros H. destruct (thread_ends_loop _ _ _ _ H) as [n Hn]. exists n. intros n' L. rewrite alone_loop. apply Hn. exact L. Qed.

  Lemma alone_thread_ends n : alone cfg ec history side te n <> Diverged ->
    exists m, tsteps m (Top te 0%Z []) = Ended te (alone cfg ec history side te n).
  Proof. rewrite alone_loop. apply loop_thread_ends. Qed.
End Thread.
