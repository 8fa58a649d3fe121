(** The sliding-window helpers: operations, replacing the latest value. *)
From Coq Require Import ZArith Bool List Lia.
From Verif.Model Require Import Outcome Machine Types Indicators.
From Verif.Spec Require Import SeriesSpec IndicatorSpec.
From Verif.Proofs Require Import Base SeriesProofs LastNProofs.
Import ListNotations.

(** ** Operation sequences *)
Section Ops.
  Context {A S : Type} (add upd : S -> A -> outcome S) (P : S -> list A -> Prop).
  Context (Hadd : forall s vs v, P s vs -> exists s', add s v = Done s' /\ P s' (vs ++ [v])).
  Context (Hupd : forall s vs a b, P s (vs ++ [a]) -> exists s', upd s b = Done s' /\ P s' (vs ++ [b])).

  Notation apply_op := (apply_op add upd).

  Lemma op_values_snoc (ops : list (window_op A)) op : op_values (ops ++ [op])
    = match op with Add v => op_values ops ++ [v] | Replace v => removelast (op_values ops) ++ [v] end.
  Proof. unfold op_values. rewrite fold_left_app. reflexivity. Qed.

  Lemma op_values_nonempty (ops : list (window_op A)) : ops <> [] -> exists vs a, op_values ops = vs ++ [a].
  Proof.
    intros H. destruct (list_snoc ops) as [->|(ops' & op & ->)]; [congruence|].
    rewrite op_values_snoc. destruct op; eauto.
  Qed.

  Lemma run_ops s0 ops : P s0 [] -> legal ops ->
    exists s, foldM apply_op s0 ops = Done s /\ P s (op_values ops).
  Proof.
    intros H0. induction ops as [|op ops IH] using rev_ind; intros HL.
    - exists s0. split; [reflexivity|exact H0].
    - destruct (list_snoc ops) as [->|(ops' & op' & E)].
      + cbn [app] in *. destruct op as [v|v]; [|contradiction].
        destruct (Hadd s0 [] v H0) as (s' & E & H). exists s'. cbn. rewrite E. split; [reflexivity|exact H].
      + assert (HL' : legal ops) by (subst; destruct ops'; exact HL).
        destruct (IH HL') as (s & E1 & H1). rewrite foldM_snoc, E1, op_values_snoc. cbn [bind].
        destruct op as [v|v]; cbn [apply_op].
        * apply Hadd. exact H1.
        * destruct (op_values_nonempty ops) as (vs & a & Ev); [subst; destruct ops'; discriminate|].
          rewrite Ev in *. rewrite removelast_last. apply (Hupd s vs a v H1).
  Qed.
End Ops.

(** ** Aggregator-based indicators whose in-period updates replace the latest tick *)
Section Replace.
  Context {M : machine} {S : Type} (handler : S -> list ohlc_tick -> tick_event -> outcome S).
  Context (n : Z) (Hn : (0 < n)%Z) (p : Z) (Hp : (0 < p)%Z) (s0 : S).
  Context (I : S -> list ohlc_tick -> Prop) (I0 : I s0 []).
  Context (HI : forall s ser t, I s ser ->
            exists s', handler s (window n (ser ++ [t])) (add_event n ser t) = Done s' /\ I s' (ser ++ [t])).
  Context (HU : forall s ser t0 t1 s', I s ser ->
            handler s (window n (ser ++ [t0])) (add_event n ser t0) = Done s' ->
            handler s' (window n (ser ++ [t1])) (TickUpdated t0 t1)
            = handler s (window n (ser ++ [t1])) (add_event n ser t1)).

  Theorem run_replace us : ordered timestamp_sec us ->
    exists s, foldM (LastN_Update handler n p) ([], s0) us = Done (window n (series p us), s)
              /\ foldM (add1 handler n) ([], s0) (series p us) = Done (series p us, s)
              /\ I s (series p us).
  Proof.
    intros Ho.
    apply (run_updates handler n Hn p Hp
             (fun s ser => foldM (add1 handler n) ([], s0) ser = Done (ser, s) /\ I s ser)); auto.
    - intros s ser t [E H]. destruct (HI s ser t H) as (s' & E' & H'). exists s'. split; [exact E'|].
      split; [|exact H']. rewrite foldM_snoc, E. cbn [bind]. unfold add1. rewrite E'. reflexivity.
    - intros s ser t0 t1 [E H]. rewrite foldM_snoc in E. apply bind_done in E as ([ser1 s1] & E1 & E2).
      pose proof (adds_fst handler n _ _ _ E1) as F. cbn [fst app] in F. subst ser1.
      unfold add1 in E2. apply bind_done in E2 as (s' & E2 & E3). assert (s' = s) as -> by congruence.
      (* the state before the last tick satisfies I *)
      assert (Hs1 : I s1 ser).
      { clear - E1 I0 HI. revert s1 E1. induction ser as [|t ser IH] using rev_ind; intros s1 E1.
        - cbn in E1. assert (s0 = s1) as <- by congruence. exact I0.
        - rewrite foldM_snoc in E1. apply bind_done in E1 as ([ser2 s2] & E1 & E2).
          pose proof (adds_fst handler n _ _ _ E1) as F. cbn [fst app] in F. subst ser2.
          destruct (HI s2 ser t (IH s2 E1)) as (s' & E' & H'). unfold add1 in E2. rewrite E' in E2. cbn [bind] in E2.
          assert (s' = s1) as <- by congruence. exact H'. }
      destruct (HI s1 ser t1 Hs1) as (s2 & E4 & H4). exists s2.
      rewrite (HU s1 ser t0 t1 s Hs1 E2). split; [exact E4|]. split; [|exact H4].
      rewrite foldM_snoc, E1. cbn [bind]. unfold add1. rewrite E4. reflexivity.
  Qed.

  Corollary run_same_series us us' : ordered timestamp_sec us -> ordered timestamp_sec us' ->
    series p us = series p us' ->
    foldM (LastN_Update handler n p) ([], s0) us = foldM (LastN_Update handler n p) ([], s0) us'.
  Proof.
    intros H1 H2 E. destruct (run_replace us H1) as (s & A1 & A2 & _).
    destruct (run_replace us' H2) as (s' & B1 & B2 & _). rewrite A1, B1, E. f_equal. f_equal.
    rewrite <- E, A2 in B2. congruence.
  Qed.
End Replace.

Section Helpers.
  Context {M : machine}.
  Local Open Scope flt_scope.

  (** ** Exponential moving average helper *)
  Definition eh_add (h : ema_helper) (vw : flt * flt) : ema_helper :=
    EmaHelper (if (ema_num_values h =? 0)%Z then fst vw
               else snd vw * fst vw + (#1 - snd vw) * current_ema h)
              (current_ema h) (ema_num_values h + 1).

  Definition eh_of (l : list (flt * flt)) : ema_helper := fold_left eh_add l NewEmaHelper.

  Lemma eh_of_snoc l x : eh_of (l ++ [x]) = eh_add (eh_of l) x.
  Proof. unfold eh_of. rewrite fold_left_app. reflexivity. Qed.

  Lemma eh_num l : ema_num_values (eh_of l) = Z.of_nat (length l).
  Proof.
    induction l as [|x l IH] using rev_ind; [reflexivity|]. rewrite eh_of_snoc, app_length. cbn [eh_add ema_num_values length].
    rewrite IH. lia.
  Qed.

  Lemma eh_Add h v w : (0 <= ema_num_values h)%Z -> ema_AddNewValue h v w = Done (eh_add h (v, w)).
  Proof.
    intros H. unfold ema_AddNewValue, ema_UpdateCurrentValue, eh_add. cbn [ema_num_values previous_ema fst snd].
    replace (ema_num_values h + 1 >? 0)%Z with true by (symmetry; apply Z.gtb_lt; lia). rewrite assert_true. cbn [bind].
    replace (ema_num_values h + 1 =? 1)%Z with (ema_num_values h =? 0)%Z; [reflexivity|].
    destruct (Z.eqb_spec (ema_num_values h) 0); symmetry; [apply Z.eqb_eq|apply Z.eqb_neq]; lia.
  Qed.

  Lemma eh_Update h v0 w0 v w : (0 <= ema_num_values h)%Z ->
    ema_UpdateCurrentValue (eh_add h (v0, w0)) v w = Done (eh_add h (v, w)).
  Proof.
    intros H. unfold ema_UpdateCurrentValue, eh_add. cbn [ema_num_values previous_ema fst snd].
    replace (ema_num_values h + 1 >? 0)%Z with true by (symmetry; apply Z.gtb_lt; lia). rewrite assert_true. cbn [bind].
    replace (ema_num_values h + 1 =? 1)%Z with (ema_num_values h =? 0)%Z; [reflexivity|].
    destruct (Z.eqb_spec (ema_num_values h) 0); symmetry; [apply Z.eqb_eq|apply Z.eqb_neq]; lia.
  Qed.

  Lemma eh_current x l : current_ema (eh_of (x :: l))
    = fold_left (fun e vw => snd vw * fst vw + (#1 - snd vw) * e) l (fst x).
  Proof.
    unfold eh_of. cbn [fold_left]. unfold eh_add at 2. cbn [NewEmaHelper ema_num_values current_ema Z.eqb].
    set (h := EmaHelper (fst x) #0 (0 + 1)).
    assert (Hh : (0 < ema_num_values h)%Z) by (cbn; lia).
    change (fst x) with (current_ema h). clearbody h. revert h Hh.
    induction l as [|y l IH]; intros h Hh; [reflexivity|]. cbn [fold_left]. rewrite IH by (cbn; lia).
    cbn [eh_add current_ema]. rewrite (proj2 (Z.eqb_neq _ _)) by lia. reflexivity.
  Qed.

  Lemma eh_ema w vs : current_ema (eh_of (map (fun v => (v, w)) vs)) = ema_of w vs.
  Proof.
    destruct vs as [|v vs]; [reflexivity|]. cbn [map]. rewrite eh_current. cbn [fst ema_of].
    generalize v. induction vs as [|a vs IH]; intros e; [reflexivity|]. cbn [map fold_left fst snd]. apply IH.
  Qed.

  (** ** Mean and variance helper *)
  Lemma mv_Update s a b : (0 <= mv_num_values s)%Z ->
    mv_UpdateCurrentValue (mv_AddNewValue s a) b = Done (mv_AddNewValue s b).
  Proof.
    intros H. unfold mv_UpdateCurrentValue, mv_AddNewValue.
    destruct ((mv_num_values s =? 0)%Z || (mv_window_size s <=? 1)%Z).
    - destruct (mv_window_size s =? 0)%Z; cbn [mv_num_values mv_window_size mv_window mv_sum mv_sum2];
        (replace (mv_num_values s + 1 >=? 1)%Z with true by (symmetry; rewrite Z.geb_leb; apply Z.leb_le; lia));
        rewrite assert_true; reflexivity.
    - destruct (mv_window_size s <=? _)%Z.
      + destruct (mv_window s ++ [mv_current s]) as [|x w];
          cbn [mv_num_values mv_window_size mv_window mv_sum mv_sum2];
          (replace (mv_num_values s + 1 >=? 1)%Z with true by (symmetry; rewrite Z.geb_leb; apply Z.leb_le; lia));
          rewrite assert_true; reflexivity.
      + cbn [mv_num_values mv_window_size mv_window mv_sum mv_sum2];
          (replace (mv_num_values s + 1 >=? 1)%Z with true by (symmetry; rewrite Z.geb_leb; apply Z.leb_le; lia));
          rewrite assert_true; reflexivity.
  Qed.

  Lemma mv_num s v : mv_num_values (mv_AddNewValue s v) = (mv_num_values s + 1)%Z.
  Proof.
    unfold mv_AddNewValue. destruct ((mv_num_values s =? 0)%Z || (mv_window_size s <=? 1)%Z).
    - destruct (mv_window_size s =? 0)%Z; reflexivity.
    - destruct (mv_window_size s <=? _)%Z; [|reflexivity]. destruct (mv_window s ++ [mv_current s]); reflexivity.
  Qed.

  Definition mv_of (n : Z) (vs : list flt) : mean_var := fold_left mv_AddNewValue vs (NewMeanVar n).
  Lemma mv_of_snoc n vs v : mv_of n (vs ++ [v]) = mv_AddNewValue (mv_of n vs) v.
  Proof. unfold mv_of. rewrite fold_left_app. reflexivity. Qed.
  Lemma mv_of_num n vs : mv_num_values (mv_of n vs) = Z.of_nat (length vs).
  Proof.
    induction vs as [|v vs IH] using rev_ind; [reflexivity|]. rewrite mv_of_snoc, mv_num, IH, app_length. cbn [length]. lia.
  Qed.

  (** ** Sliding minimum helper *)
  Definition sm_ok (n : Z) (s : sliding_min) (vs : list flt) : Prop :=
    sm_window_size s = n /\ sm_num_values s = Z.of_nat (length vs) /\
    (vs = [] \/ n = 1%Z -> sm_window s = []).

  Lemma pop_front_total num size w x : (1 < size)%Z ->
    exists w', pop_front_loop num size (w ++ [(x, num)]) = Done w'.
  Proof.
    intros H. induction w as [|[y i] w IH].
    - cbn. rewrite (proj2 (Z.leb_gt _ _)) by lia. eauto.
    - cbn. destruct (size <=? num - i + 1)%Z; eauto.
  Qed.

  Lemma sm_Add n s vs v : (0 < n)%Z -> sm_ok n s vs ->
    exists s', sm_AddNewValue s v = Done s' /\ sm_ok n s' (vs ++ [v]) /\
      forall b, sm_UpdateCurrentValue s' b = sm_AddNewValue s b.
  Proof.
    intros Hn (H1 & H2 & H3). unfold sm_AddNewValue, sm_ok. rewrite H1, H2. rewrite app_length. cbn [length].
    destruct ((Z.of_nat (length vs) =? 0)%Z || (n =? 1)%Z) eqn:E.
    - assert (Hw : sm_window s = []).
      { apply H3. apply orb_true_iff in E as [E|E]; apply Z.eqb_eq in E; [left; destruct vs; [reflexivity|cbn in E; lia]|right; exact E]. }
      eexists. split; [reflexivity|]. cbn [sm_window_size sm_num_values sm_window]. rewrite Hw.
      repeat split; auto; try lia.
      intros b. unfold sm_UpdateCurrentValue. cbn [sm_window_size sm_num_values sm_window].
      replace (Z.of_nat (length vs) + 1 >=? 1)%Z with true by (symmetry; rewrite Z.geb_leb; apply Z.leb_le; lia).
      rewrite assert_true. reflexivity.
    - apply orb_false_iff in E as [E1 E2]. apply Z.eqb_neq in E1. apply Z.eqb_neq in E2.
      cbn [rev]. destruct (pop_front_total (Z.of_nat (length vs)) n
                             (rev (pop_back_loop (sm_current s) (rev (sm_window s)))) (sm_current s) ltac:(lia)) as [w' ->].
      cbn [bind]. unfold sm_UpdateCurrentValue. cbn [sm_window_size sm_num_values sm_window].
      replace (Z.of_nat (length vs) + 1 >=? 1)%Z with true by (symmetry; rewrite Z.geb_leb; apply Z.leb_le; lia).
      rewrite assert_true. cbn [bind]. eexists. split; [reflexivity|]. cbn [sm_window_size sm_num_values sm_window].
      repeat split; auto; try lia.
      + intros [H|H]; [destruct vs; discriminate|congruence].
      + intros b. replace (Z.of_nat (length vs) + 1 >=? 1)%Z with true by (symmetry; rewrite Z.geb_leb; apply Z.leb_le; lia).
        rewrite assert_true. reflexivity.
  Qed.
End Helpers.
