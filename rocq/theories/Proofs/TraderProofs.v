(** The stop trader. *)
From Coq Require Import Reals ZArith Bool List Lia Lra.
From Flocq Require Import Core BinarySingleNaN.
From Verif.Model Require Import Outcome Machine Types Account Eval Traders MachineR MachineIEEE.
From Verif.Spec Require Import OrderSpec AccountIEEESpec TraderSpec.
From Verif.Proofs Require Import Base FloatLemmas OrderLaws.
Import ListNotations.

Section Any.
  Context {M : machine}.

  Definition view_mode (v : view) : mode := if is_long v then LONG else CASH.

  Lemma stop_mode_view v : stop_mode (v_price v) (v_base v) (v_quote v) = view_mode v.
  Proof. reflexivity. Qed.

  Definition restart (s : stop_state) (v : view) : bool :=
    ((v_time v >=? sp_timestamp s + max_allowed_gap_sec)%Z || negb (mode_eqb (view_mode v) (sp_mode s))).

  Definition next_stop (c : stop_config) (s : stop_state) (v : view) : outcome flt :=
    if restart s v then Done (start_price c v)
    else UpdateStopOrderPrice c s (view_mode v) (v_time v) (v_price v).

  Definition guard (s : stop_state) (v : view) : outcome unit :=
    assert_ (v_time v >? sp_timestamp s)%Z ;;
    assert_ (fltb (fofZ 0) (v_price v)) ;;
    assert_ (fltb (fofZ 0) (v_base v) || fltb (fofZ 0) (v_quote v)).

  Definition state_after (v : view) (p : flt) : stop_state :=
    StopState (v_base v) (v_quote v) (v_time v) (v_price v) (view_mode v) p.

  Lemma stop_update_eq c s v :
    stop_update c s (v_tick v) (v_signals v) (v_base v) (v_quote v) =
    (do _ <- guard s v ; do p <- next_stop c s v ; Done (state_after v p, [closing_order v p])).
  Proof.
    unfold stop_update, guard, next_stop, restart, state_after, closing_order, start_price.
    fold (v_time v) (v_price v). rewrite stop_mode_view, !bind_assoc.
    apply bind_ext; intros _ _. cbv beta. apply bind_ext; intros _ _. cbv beta.
    apply bind_ext; intros _ _. unfold view_mode.
    destruct (_ || _) eqn:E.
    - destruct (is_long v); cbn [mode_eqb]; rewrite ?assert_true; cbn [bind EmitStopOrder sp_mode mode_eqb];
        rewrite ?assert_true; reflexivity.
    - assert (mode_eqb (if is_long v then LONG else CASH) (sp_mode s) = true) as ->.
      { apply orb_false_iff in E as [_ E]. apply negb_false_iff in E. exact E. }
      rewrite assert_true. cbn [bind]. apply bind_ext; intros p _.
      destruct (is_long v); cbn [EmitStopOrder sp_mode mode_eqb]; rewrite ?assert_true; reflexivity.
  Qed.

  Lemma next_stop_done c s v : exists p, next_stop c s v = Done p.
  Proof.
    unfold next_stop, UpdateStopOrderPrice, view_mode. destruct (restart s v); [eauto|].
    destruct (is_long v).
    - destruct (fleb _ _); eauto.
    - cbn [mode_eqb]. rewrite assert_true. cbn [bind]. destruct (fleb _ _); eauto.
  Qed.

  (** The relation between consecutive stop prices. *)
  Fixpoint chain (c : stop_config) (s : stop_state) (vs : list view) (ps : list flt) : Prop :=
    match vs, ps with
    | [], [] => True
    | v :: vs', p :: ps' =>
      guard s v = Done tt /\ next_stop c s v = Done p /\ chain c (state_after v p) vs' ps'
    | _, _ => False
    end.

  Lemma chain_length c vs : forall s ps, chain c s vs ps -> length ps = length vs.
  Proof.
    induction vs as [|v vs IH]; intros s [|p ps]; cbn; try easy. intros (_ & _ & H). f_equal. eauto.
  Qed.

  Lemma orders_chain c vs : forall s oss,
    orders_from (stop_emitter c) s vs = Done oss <->
    exists ps, chain c s vs ps /\ oss = map (fun vp => [closing_order (fst vp) (snd vp)]) (combine vs ps).
  Proof.
    induction vs as [|v vs IH]; intros s oss.
    - cbn. split.
      + intros H. injection H as <-. exists []. auto.
      + intros ([|p ps] & H & ->); [reflexivity|destruct H].
    - cbn [orders_from stop_emitter te_update]. rewrite stop_update_eq. split.
      + intros H. apply bind_done in H as (r & H1 & H). apply bind_done in H as (rest & H2 & H3).
        apply bind_done in H1 as ([] & Hg & H1). apply bind_done in H1 as (p & Hp & H1).
        injection H1 as <-. cbn [fst snd] in *.
        apply IH in H2 as (ps & Hc & ->). exists (p :: ps). cbn. injection H3 as <-. auto.
      + intros ([|p ps] & H & ->); [destruct H|]. cbn in H. destruct H as (Hg & Hn & Hc).
        rewrite Hg, Hn. cbn [bind fst snd].
        assert (R : orders_from (stop_emitter c) (state_after v p) vs =
                    Done (map (fun vp => [closing_order (fst vp) (snd vp)]) (combine vs ps)))
          by (apply IH; eauto).
        rewrite R. reflexivity.
  Qed.

  Lemma closing_inj v p q : closing_order v p = closing_order v q -> p = q.
  Proof. unfold closing_order. destruct (is_long v); intros H; congruence. Qed.

  Lemma stop_prices_chain c vs ps : stop_prices c vs ps <-> chain c stop_init vs ps.
  Proof.
    unfold stop_prices, orders_emitted. change (te_new (stop_emitter c)) with stop_init.
    rewrite orders_chain. split.
    - intros ((qs & Hc & E) & Hl). pose proof (chain_length _ _ _ _ Hc) as Hq.
      assert (ps = qs); [|subst; auto].
      clear Hc. revert ps qs E Hl Hq. induction vs as [|v vs IH]; intros [|p ps] [|q qs]; cbn; try easy.
      intros E Hl Hq. injection E as E1 E2. f_equal; [apply closing_inj in E1; auto|auto].
    - intros H. split; [eauto|]. exact (chain_length _ _ _ _ H).
  Qed.

  Lemma chain_nth c vs : forall s ps, chain c s vs ps -> forall i v0 v p0 p,
    nth_error vs i = Some v0 -> nth_error vs (S i) = Some v ->
    nth_error ps i = Some p0 -> nth_error ps (S i) = Some p ->
    guard (state_after v0 p0) v = Done tt /\ next_stop c (state_after v0 p0) v = Done p.
  Proof.
    induction vs as [|w vs IH]; intros s [|q ps] H i v0 v p0 p; cbn in H; try (destruct H; fail).
    - destruct i; discriminate.
    - destruct H as (_ & _ & H). destruct i as [|i].
      + cbn. intros [= <-] E1 [= <-] E2. destruct vs as [|w' vs], ps as [|q' ps]; try discriminate.
        cbn in E1, E2. injection E1 as <-. injection E2 as <-. cbn in H. tauto.
      + intros E1 E2 E3 E4. exact (IH _ _ H i v0 v p0 p E1 E2 E3 E4).
  Qed.

  Lemma chain_first c s vs ps v p : chain c s vs ps -> nth_error vs 0 = Some v -> nth_error ps 0 = Some p ->
    guard s v = Done tt /\ next_stop c s v = Done p.
  Proof.
    destruct vs as [|w vs], ps as [|q ps]; cbn; try easy.
    intros H [= <-] [= <-]. tauto.
  Qed.

  Lemma restart_first v : restart stop_init v = true.
  Proof. unfold restart, view_mode. destruct (is_long v); cbn; apply orb_true_r. Qed.

  Lemma restart_after v0 p v : restart (state_after v0 p) v = true <-> new_position v0 v.
  Proof.
    unfold restart, new_position, view_mode. cbn [state_after sp_timestamp sp_mode].
    unfold max_allowed_gap_sec, view_mode. rewrite orb_true_iff, Z.geb_le.
    destruct (is_long v), (is_long v0); cbn; split; intros [H|H]; try discriminate; try (left; easy);
      try (right; easy); try (left; lia); try (right; lia); exfalso; apply H; reflexivity.
  Qed.

  (** When does the trader return at all? *)
  Lemma chain_exists c vs : forall s,
    (asserts_on = true -> increasing_from (sp_timestamp s) vs /\ Forall demands vs) ->
    exists ps, chain c s vs ps.
  Proof.
    induction vs as [|v vs IH]; intros s H; [exists []; exact I|].
    destruct (next_stop_done c s v) as (p & Hp).
    destruct (IH (state_after v p)) as (ps & Hc).
    { intros Ha. destruct (H Ha) as ((_ & H1) & H2). inversion H2; subst. auto. }
    exists (p :: ps). cbn. repeat split; auto.
    unfold guard. destruct asserts_on eqn:Ha.
    - destruct (H eq_refl) as ((Ht & _) & Hd). inversion Hd as [|? ? (D1 & D2) _]; subst.
      assert ((v_time v >? sp_timestamp s)%Z = true) as -> by lia.
      rewrite D1, ?assert_true. cbn [bind]. rewrite ?assert_true. cbn [bind].
      assert (fltb (fofZ 0) (v_base v) || fltb (fofZ 0) (v_quote v) = true) as -> by (apply orb_true_iff; exact D2).
      apply assert_true.
    - unfold assert_. rewrite Ha. reflexivity.
  Qed.

  Lemma chain_demands c vs : forall s ps, chain c s vs ps -> asserts_on = true ->
    increasing_from (sp_timestamp s) vs /\ Forall demands vs.
  Proof.
    induction vs as [|v vs IH]; intros s [|p ps]; cbn; try (intros []; fail).
    - intros _ _. split; [exact I|constructor].
    - intros (Hg & _ & Hc) Ha. destruct (IH _ _ Hc Ha) as (H1 & H2).
      unfold guard in Hg. apply bind_done in Hg as (? & G1 & Hg). apply bind_done in Hg as (? & G2 & G3).
      apply assert_done in G1, G2, G3. rewrite Ha in *.
      destruct G1 as [?|G1]; [discriminate|]. destruct G2 as [?|G2]; [discriminate|].
      destruct G3 as [?|G3]; [discriminate|]. split.
      + split; [lia|exact H1].
      + constructor; [|exact H2]. split; [exact G2|]. apply orb_true_iff. exact G3.
  Qed.

  Lemma move_done c s v p : next_stop c s v = Done p -> restart s v = false ->
    UpdateStopOrderPrice c s (view_mode v) (v_time v) (v_price v) = Done p.
  Proof. unfold next_stop. intros H E. rewrite E in H. exact H. Qed.
End Any.

Section Order.
  Context {M : machine} (O : real_order M).

  Lemma leb_refl x : num O x = true -> fleb x x = true.
  Proof. intros H. apply (leb_spec O); auto. lra. Qed.

  Lemma follows_step c v0 p0 v p :
    next_stop c (state_after v0 p0) v = Done p -> ~ new_position v0 v -> follows c v p0 p.
  Proof.
    intros H Hn.
    assert (E : restart (state_after v0 p0) v = false).
    { destruct (restart _ v) eqn:E; auto. apply restart_after in E. contradiction. }
    apply move_done in H; [|exact E]. clear E Hn.
    unfold UpdateStopOrderPrice, view_mode in H. unfold follows, follow_limit.
    destruct (is_long v); cbn [mode_eqb] in H; rewrite ?assert_true in H;
      cbn [bind state_after stop_order_price sp_timestamp] in H;
      destruct (fleb _ _) eqn:L in H; assert (p = _) as -> by (injection H as H; symmetry; exact H);
      auto; clear H.
    - set (lim := fmul _ _) in *. set (x := fmul (fadd _ (fsub _ _)) _). clearbody lim x.
      apply (leb_num M O) in L as [N1 N2].
      unfold fmax. destruct (fltb p0 _) eqn:Q; [|auto]. right. split; [exact Q|].
      unfold fmin. destruct (fltb x lim) eqn:Q2; [|apply leb_refl; auto].
      destruct (ltb_num M O _ _ Q2) as [N3 _]. apply (ltb_spec O) in Q2; auto. apply (leb_spec O); auto. lra.
    - set (lim := fmul _ _) in *. set (x := fmul (fsub _ (fsub _ _)) _). clearbody lim x.
      apply (leb_num M O) in L as [N1 N2].
      unfold fmin. destruct (fltb _ p0) eqn:Q; [|auto]. right. split; [exact Q|].
      unfold fmax. destruct (fltb lim x) eqn:Q2; [|apply leb_refl; auto].
      destruct (ltb_num M O _ _ Q2) as [_ N3]. apply (ltb_spec O) in Q2; auto. apply (leb_spec O); auto. lra.
  Qed.
End Order.

Section Exact.
  Context (sh : R -> String.string) (as_ : bool).
  Local Notation E := (exact sh as_).
  Local Open Scope R_scope.

  Lemma drift_pos (c : @stop_config E) v0 v : 0 < drift c v0 v.
  Proof. unfold drift, Rpower. destruct (is_long v); apply exp_pos. Qed.

  Lemma ln_ge_0 x : 1 <= x -> 0 <= ln x.
  Proof.
    intros H. destruct (Req_dec x 1) as [->|N]; [rewrite ln_1; lra|].
    rewrite <- ln_1. left. apply ln_increasing; lra.
  Qed.
  Lemma ln_le_0 x : 0 < x <= 1 -> ln x <= 0.
  Proof.
    intros H. destruct (Req_dec x 1) as [->|N]; [rewrite ln_1; lra|].
    rewrite <- ln_1. left. apply ln_increasing; lra.
  Qed.
  Lemma exp_ge_1 x : 0 <= x -> 1 <= exp x.
  Proof. intros [H| <-]; [|rewrite exp_0; lra]. rewrite <- exp_0. left. apply exp_increasing, H. Qed.
  Lemma exp_le_1 x : x <= 0 -> exp x <= 1.
  Proof. intros [H| ->]; [|rewrite exp_0; lra]. rewrite <- exp_0. left. apply exp_increasing, H. Qed.

  Lemma drift_long (c : @stop_config E) v0 v : is_long v = true -> (v_time v0 < v_time v)%Z ->
    0 <= (stop_order_increase_per_day c : R) -> 1 <= drift c v0 v.
  Proof.
    intros L T C. unfold drift. rewrite L. unfold Rpower. apply exp_ge_1. apply Rmult_le_pos.
    - unfold days. apply Rmult_le_pos; [|lra]. apply IZR_le. lia.
    - apply ln_ge_0. lra.
  Qed.

  Lemma drift_cash (c : @stop_config E) v0 v : is_long v = false -> (v_time v0 < v_time v)%Z ->
    0 <= (stop_order_decrease_per_day c : R) < 1 -> drift c v0 v <= 1.
  Proof.
    intros L T C. unfold drift. rewrite L. unfold Rpower. apply exp_le_1.
    assert (0 <= days v0 v). { unfold days. apply Rmult_le_pos; [|lra]. apply IZR_le. lia. }
    pose proof (ln_le_0 (1 - stop_order_decrease_per_day c)).
    assert (ln (1 - stop_order_decrease_per_day c) <= 0) by (apply H0; lra). nra.
  Qed.

  Lemma exact_step (c : @stop_config E) v0 p0 v p :
    next_stop c (state_after v0 p0) v = Done p -> ~ new_position v0 v ->
    (v_time v0 < v_time v)%Z -> 0 <= (p0 : R) ->
    0 <= (stop_order_increase_per_day c : R) -> 0 <= (stop_order_decrease_per_day c : R) < 1 ->
    p = followed c v0 v p0.
  Proof.
    intros H Hn Ht P0 C1 C2.
    assert (E0 : restart (state_after v0 p0) v = false).
    { destruct (restart _ v) eqn:E0; auto. apply restart_after in E0. contradiction. }
    apply move_done in H; [|exact E0].
    assert (G : (v_time v - v_time v0 < 3600)%Z).
    { unfold new_position in Hn. apply Classical_Prop.not_or_and in Hn. lia. }
    assert (D : forall x : R, x / (IZR 86400 / IZR (Z.min 86400 (v_time v - v_time v0))) = days v0 v * x).
    { intros x. rewrite Z.min_r by lia. unfold days. field. apply not_0_IZR. lia. }
    pose proof (drift_pos c v0 v) as DP.
    unfold followed. destruct (is_long v) eqn:L.
    - pose proof (drift_long c v0 v L Ht C1) as DL.
      unfold UpdateStopOrderPrice, view_mode in H. unfold follow_limit. rewrite L in *.
      cbn [state_after stop_order_price sp_timestamp bind] in H.
      unfold kSecondsPerDay in H. cbn [fofZ fdiv fmul fsub fadd fleb fexp flog exact flt] in H |- *.
      change (1 * 24 * 60 * 60)%Z with 86400%Z in H. rewrite ?D in H.
      fold (Rpower (1 + stop_order_increase_per_day c) (days v0 v)) in H.
      replace (Rpower (1 + stop_order_increase_per_day c) (days v0 v)) with (drift c v0 v) in H
        by (unfold drift; rewrite L; reflexivity).
      change (@flt E) with R in *.
      set (lim := (1 - _) * _) in *. clearbody lim.
      destruct (Rle_bool_spec p0 lim) as [Q|Q]; injection H as <-;
        destruct (Rle_dec p0 lim); try lra.
      destruct (fmin_spec (exact_order sh as_) lim ((1 + (drift c v0 v - 1)) * p0) eq_refl eq_refl) as (_ & V & _).
      destruct (fmax_spec (exact_order sh as_) p0 (@fmin E lim ((1 + (drift c v0 v - 1)) * p0)) eq_refl eq_refl) as (_ & V' & _).
      cbn [val exact_order] in V, V'. rewrite V'. rewrite V.
      replace ((1 + (drift c v0 v - 1)) * p0) with (p0 * drift c v0 v) by ring.
      apply Rmax_right. apply Rmin_glb; [exact Q|]. nra.
    - pose proof (drift_cash c v0 v L Ht C2) as DL.
      unfold UpdateStopOrderPrice, view_mode in H. unfold follow_limit. rewrite L in *.
      cbn [mode_eqb] in H. rewrite assert_true in H.
      cbn [state_after stop_order_price sp_timestamp bind] in H.
      unfold kSecondsPerDay in H. cbn [fofZ fdiv fmul fsub fadd fleb fexp flog exact flt] in H |- *.
      change (1 * 24 * 60 * 60)%Z with 86400%Z in H. rewrite ?D in H.
      fold (Rpower (1 - stop_order_decrease_per_day c) (days v0 v)) in H.
      replace (Rpower (1 - stop_order_decrease_per_day c) (days v0 v)) with (drift c v0 v) in H
        by (unfold drift; rewrite L; reflexivity).
      change (@flt E) with R in *.
      set (lim := (1 + stop_order_move_margin c) * v_price v) in *. clearbody lim.
      destruct (Rle_bool_spec lim p0) as [Q|Q]; injection H as <-;
        destruct (Rle_dec lim p0); try lra.
      destruct (fmax_spec (exact_order sh as_) lim ((1 - (1 - drift c v0 v)) * p0) eq_refl eq_refl) as (_ & V & _).
      destruct (fmin_spec (exact_order sh as_) p0 (@fmax E lim ((1 - (1 - drift c v0 v)) * p0)) eq_refl eq_refl) as (_ & V' & _).
      cbn [val exact_order] in V, V'. rewrite V'. rewrite V.
      replace ((1 - (1 - drift c v0 v)) * p0) with (p0 * drift c v0 v) by ring.
      apply Rmin_right. apply Rmax_lub; [exact Q|]. nra.
  Qed.

  (** Over any stretch without a new position the stop drifts at most at the daily rate. *)
  Lemma drift_trans (c : @stop_config E) v0 v1 v2 : is_long v1 = is_long v2 ->
    drift c v0 v1 * drift c v1 v2 = drift c v0 v2.
  Proof.
    intros L. unfold drift. rewrite L.
    assert (D : days v0 v1 + days v1 v2 = days v0 v2) by (unfold days; rewrite !minus_IZR; lra).
    destruct (is_long v2); rewrite <- Rpower_plus, D; reflexivity.
  Qed.

  Lemma drift_self (c : @stop_config E) v : drift c v v = 1.
  Proof.
    unfold drift, days. rewrite Z.sub_diag. replace (0 / 86400) with 0 by lra.
    destruct (is_long v); unfold Rpower; rewrite Rmult_0_l; apply exp_0.
  Qed.
End Exact.
