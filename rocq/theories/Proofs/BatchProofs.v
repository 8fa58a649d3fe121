(** Batches of traders and summaries. *)
From Coq Require Import ZArith Bool List Lia String Reals Lra.
From Flocq Require Import Core BinarySingleNaN.
From Verif.Model Require Import Outcome Machine Types Account History SideInput Indicators TimeUtil Eval MachineR MachineIEEE.
From Verif.Spec Require Import SeriesSpec RunSpec EvalSpec OrderSpec.
From Verif.Proofs Require Import Base EvalProofs FloatLemmas AccountAny AccountIEEE.
Import ListNotations.

Section Batch.
  Context {M : machine}.
  Context (cfg : account_config) (ec : evaluation_config) (history : list ohlc_tick)
          (side : option side_input).

  Fixpoint steps (n : nat) (t : task) : task :=
    match n with O => t | S n' => steps n' (task_step cfg ec history side t) end.

  Lemma steps_plus a b t : steps (a + b) t = steps b (steps a t).
  Proof. revert t. induction a as [|a IH]; intros t; [reflexivity|]. cbn. apply IH. Qed.

  Lemma steps_finished n r : steps n (Finished r) = Finished r.
  Proof. induction n as [|n IH]; [reflexivity|exact IH]. Qed.

  Lemma nth_step i j ts : nth_error (step_nth cfg ec history side i ts) j
    = if Nat.eqb i j then option_map (task_step cfg ec history side) (nth_error ts j) else nth_error ts j.
  Proof.
    revert i j. induction ts as [|t ts IH]; intros i j.
    - destruct i, j; cbn; try reflexivity. destruct (Nat.eqb i j); reflexivity.
    - destruct i, j; cbn; try reflexivity. apply IH.
  Qed.

  Lemma nth_schedule sched j ts : nth_error (run_schedule cfg ec history side sched ts) j
    = option_map (steps (count_occ Nat.eq_dec sched j)) (nth_error ts j).
  Proof.
    revert ts. induction sched as [|i sched IH]; intros ts; cbn [run_schedule fold_left count_occ].
    - destruct (nth_error ts j); reflexivity.
    - unfold run_schedule in IH. rewrite IH, nth_step. destruct (Nat.eq_dec i j) as [->|Hne].
      + rewrite Nat.eqb_refl. destruct (nth_error ts j); reflexivity.
      + rewrite (proj2 (Nat.eqb_neq i j) Hne). reflexivity.
  Qed.

  Lemma length_step i ts : List.length (step_nth cfg ec history side i ts) = List.length ts.
  Proof. revert i. induction ts as [|t ts IH]; intros [|i]; cbn; auto. Qed.

  Lemma length_schedule sched ts : List.length (run_schedule cfg ec history side sched ts) = List.length ts.
  Proof. revert ts. induction sched as [|i s IH]; intros ts; cbn; [reflexivity|]. unfold run_schedule in IH. rewrite IH. apply length_step. Qed.

  (** The result of a task run alone. *)
  Definition alone (te : trader_emitter) (n : nat) : outcome evaluation_result :=
    omap fst (EvaluateTrader cfg ec history side te null_logger false n tt).

  Definition loop_result (te : trader_emitter) n s : outcome evaluation_result :=
    do '(ps, _) <- eval_loop cfg ec history side te null_logger false n s ; eval_summary cfg ec te ps.

  Lemma alone_loop te n : alone te n = loop_result te n (0%Z, [], tt).
  Proof.
    unfold alone, EvaluateTrader, loop_result, omap. rewrite bind_assoc. apply bind_ext. intros [ps l] _.
    destruct (eval_summary cfg ec te ps); reflexivity.
  Qed.

  Lemma steps_loop te n s :
    steps n (Running te s) = Finished (loop_result te n s) \/
    (loop_result te n s = Diverged /\ exists s', steps n (Running te s) = Running te s').
  Proof.
    revert s. induction n as [|n IH]; intros s.
    - right. split; [reflexivity|eexists; reflexivity].
    - cbn [steps task_step]. unfold loop_result. cbn [eval_loop].
      destruct (eval_step cfg ec history side te null_logger false s) as [[s'|[ps l]]| | | |]; cbn [bind];
        try (left; rewrite steps_finished; reflexivity).
      apply IH.
  Qed.

  (** The outcomes of all tasks, in order. *)
  Lemma collect_all ts rs :
    Forall2 (fun t r => t = Finished r) ts rs ->
    collect ts = fold_right (fun x acc => do y <- x ; do ys <- acc ; Done (y :: ys)) (Done []) rs.
  Proof. induction 1 as [|t r ts rs -> F IH]; cbn; [reflexivity|]. rewrite IH. reflexivity. Qed.

  Lemma collect_done ts xs : collect ts = Done xs -> Forall2 (fun t x => t = Finished (Done x)) ts xs.
  Proof.
    revert xs. induction ts as [|t ts IH]; intros xs H; cbn in H.
    - injection H as <-. constructor.
    - destruct t as [te s|r]; [discriminate|]. apply bind_done in H as (x & -> & H). apply bind_done in H as (ys & H & E).
      injection E as <-. constructor; auto.
  Qed.
End Batch.

(** *** A run without executed orders leaves the account as it was. *)
Section Unchanged.
  Context {M : machine}.
  Context (cfg : account_config) (side : option side_input) (fast : bool) (te : trader_emitter) (lg : logger) (hl : bool).

  Lemma orders_unchanged t os a n l a' n' l' :
    foldM (order_step cfg lg hl t) (a, n, l) os = Done (a', n', l') -> (n <= n')%Z /\ (n = n' -> a' = a).
  Proof.
    revert a n l. induction os as [|o os IH]; intros a n l H.
    - injection H as <- <- <-. split; [lia|auto].
    - cbn [foldM] in H. apply bind_done in H as ([[a1 n1] l1] & H1 & H2). destruct (IH _ _ _ H2) as [I1 I2].
      unfold order_step in H1. apply bind_done in H1 as ([ok a2] & E & H1). destruct ok; injection H1 as <- <- <-.
      + split; [lia|intros ->; lia].
      + split; [exact I1|]. intros En. rewrite (I2 En). exact (proj1 (ExecuteOrder_all _ _ _ _ _ _ E) eq_refl).
  Qed.

  Lemma run_unchanged s0 ticks s :
    foldM (tick_step cfg side fast te lg hl) s0 ticks = Done s ->
    (x_executed te lg s0 <= x_executed te lg s)%Z /\ (x_executed te lg s0 = x_executed te lg s -> x_account te lg s = x_account te lg s0).
  Proof.
    revert s0. induction ticks as [|t ticks IH]; intros s0 H.
    - injection H as <-. split; [lia|auto].
    - cbn [foldM] in H. apply bind_done in H as (s1 & H1 & H2). destruct (IH _ H2) as [I1 I2].
      unfold tick_step in H1. apply bind_done in H1 as ([sig prev] & _ & H1). apply bind_done in H1 as ([[a n] l2] & E & H1).
      destruct (orders_unchanged _ _ _ _ _ _ _ _ E) as [O1 O2].
      assert (K : x_account te lg s1 = a /\ x_executed te lg s1 = n).
      { destruct (feqb _ _); [injection H1 as <-; auto|]. apply bind_done in H1 as ([ts os] & _ & H1).
        apply bind_done in H1 as (bv & _ & H1). apply bind_done in H1 as (tv & _ & H1). injection H1 as <-. auto. }
      destruct K as [<- <-]. split; [lia|]. intros Eq. rewrite I2 by lia. apply O2. lia.
  Qed.

  Lemma execute_unchanged first rest l res l' :
    ExecuteTrader cfg side fast te lg hl (first :: rest) l = Done (res, l') -> r_total_executed_orders res = 0%Z ->
    r_end_base_balance res = start_base_balance cfg /\ r_end_quote_balance res = start_quote_balance cfg /\
    r_end_value res = fadd (start_quote_balance cfg) (fmul (r_end_price res) (start_base_balance cfg)).
  Proof.
    intros H Hx. unfold ExecuteTrader in H. apply bind_done in H as (s0 & H0 & H). apply bind_done in H as (s & Hs & H).
    injection H as <- <-. cbn in Hx. destruct (run_unchanged _ _ _ Hs) as [_ U].
    assert (K : x_account te lg s0 = InitAccount cfg /\ x_executed te lg s0 = 0%Z).
    { unfold exec_init in H0. apply bind_done in H0 as (bv & _ & H0). apply bind_done in H0 as (tv & _ & H0). injection H0 as <-. auto. }
    destruct K as [K1 K2]. rewrite K1, K2, Hx in U. specialize (U eq_refl). cbn. rewrite U. cbn. auto.
  Qed.
End Unchanged.

(** *** Bit-exact float facts. *)
Local Open Scope R_scope.
Lemma eq_pos (x y : f32) : is_finite x = true -> is_finite y = true -> B2R x = B2R y -> 0 < B2R y -> x = y.
Proof.
  intros Fx Fy E P. apply B2R_inj; auto.
  - destruct x; try discriminate; [cbn in E; lra|reflexivity].
  - destruct y; try discriminate; [cbn in P; lra|reflexivity].
Qed.

Lemma rnd_B2R (x : f32) : rnd (B2R x) = B2R x.
Proof. apply round_generic; [exact _|]. apply generic_format_B2R. Qed.

Lemma mul_one (p : f32) : is_finite p = true -> 0 < B2R p -> Bmult mode_NE p (f32_of_Z 1) = p.
Proof.
  intros F P. destruct (ofZ_finite 1 ltac:(lia)) as [F1 E1].
  pose proof (Bmult_correct 24 128 _ _ mode_NE p (f32_of_Z 1)) as H. cbn [round_mode] in H. rewrite E1, Rmult_1_r in H.
  change (round radix2 (SpecFloat.fexp 24 128) ZnearestE (B2R p)) with (rnd (B2R p)) in H.
  rewrite rnd_B2R in H. rewrite Rlt_bool_true in H by apply abs_B2R_lt_emax. destruct H as (HR & HF & _).
  rewrite F, F1 in HF. apply eq_pos; auto.
Qed.

Lemma zero_add (p : f32) : is_finite p = true -> 0 < B2R p -> Bplus mode_NE (f32_of_Z 0) p = p.
Proof.
  intros F P. destruct (ofZ_finite 0 ltac:(lia)) as [F1 E1].
  pose proof (Bplus_correct 24 128 _ _ mode_NE (f32_of_Z 0) p F1 F) as H. cbn [round_mode] in H. rewrite E1, Rplus_0_l in H.
  change (round radix2 (SpecFloat.fexp 24 128) ZnearestE (B2R p)) with (rnd (B2R p)) in H.
  rewrite rnd_B2R in H. rewrite Rlt_bool_true in H by apply abs_B2R_lt_emax. destruct H as (HR & HF & _).
  apply eq_pos; auto.
Qed.

Lemma div_self (g : f32) : is_finite g = true -> 0 < B2R g -> Bdiv mode_NE g g = f32_of_Z 1.
Proof.
  intros F P. destruct (ofZ_finite 1 ltac:(lia)) as [F1 E1].
  pose proof (Bdiv_correct 24 128 _ _ mode_NE g g ltac:(lra)) as H. cbn [round_mode] in H.
  replace (B2R g / B2R g) with (B2R (f32_of_Z 1)) in H by (rewrite E1; field; lra).
  change (round radix2 (SpecFloat.fexp 24 128) ZnearestE (B2R (f32_of_Z 1))) with (rnd (B2R (f32_of_Z 1))) in H.
  rewrite rnd_B2R in H. rewrite Rlt_bool_true in H by apply abs_B2R_lt_emax. destruct H as (HR & HF & _).
  rewrite F in HF. apply eq_pos; auto. rewrite E1. lra.
Qed.

(** A quotient of prices between 2^-60 and 2^60 is finite and positive. *)
Definition moderate (x : f32) : Prop := is_finite x = true /\ bpow radix2 (-60) <= B2R x <= bpow radix2 60.

Lemma quotient_moderate (x y : f32) : moderate x -> moderate y ->
  is_finite (Bdiv mode_NE x y) = true /\ 0 < B2R (Bdiv mode_NE x y).
Proof.
  intros [Fx Hx] [Fy Hy]. pose proof (bpow_gt_0 radix2 (-60)).
  assert (Q : bpow radix2 (-120) <= B2R x / B2R y <= bpow radix2 120).
  { split.
    - replace (-120)%Z with (-60 + - (60))%Z by lia. rewrite bpow_plus, bpow_opp. unfold Rdiv. apply Rmult_le_compat; try lra.
      + left; apply Rinv_0_lt_compat, bpow_gt_0.
      + apply Rinv_le; lra.
    - replace 120%Z with (60 + - (-60))%Z by lia. rewrite bpow_plus, (bpow_opp radix2 (-60)). unfold Rdiv. apply Rmult_le_compat; try lra.
      + left; apply Rinv_0_lt_compat; lra.
      + apply Rinv_le; lra. }
  pose proof (Bdiv_correct 24 128 _ _ mode_NE x y ltac:(lra)) as H0. cbn [round_mode] in H0.
  pose proof (bpow_gt_0 radix2 (-120)).
  rewrite (no_overflow _ 120) in H0 by (try lia; rewrite Rabs_pos_eq; lra). destruct H0 as (HR & HF & _). rewrite Fx in HF.
  split; [exact HF|]. rewrite HR. apply Rlt_le_trans with (bpow radix2 (-120)); [lra|].
  change (round radix2 (SpecFloat.fexp 24 128) ZnearestE (B2R x / B2R y)) with (rnd (B2R x / B2R y)).
  rewrite <- (round_generic radix2 fexp32 ZnearestE (bpow radix2 (-120))) by (apply format_bpow; lia). apply rnd_mono. lra.
Qed.

(** *** Sums and products over the reals. *)
Lemma fold_plus {A} (f : A -> R) l x : fold_left (fun s a => s + f a) l x = x + fold_right Rplus 0 (map f l).
Proof. revert x. induction l as [|a l IH]; intros x; cbn; [lra|]. rewrite IH. lra. Qed.
Lemma fold_mult {A} (f : A -> R) l x : fold_left (fun s a => s * f a) l x = x * fold_right Rmult 1 (map f l).
Proof. revert x. induction l as [|a l IH]; intros x; cbn; [lra|]. rewrite IH. ring. Qed.
