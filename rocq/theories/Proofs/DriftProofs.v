(** How far the running float sum of the simple moving average can drift from the exact sum. *)
From Coq Require Import Reals ZArith Bool List Lia Lra.
From Flocq Require Import Core BinarySingleNaN.
From Verif.Model Require Import Outcome Machine Types Indicators MachineIEEE.
From Verif.Spec Require Import SeriesSpec IndicatorSpec.
From Verif.Proofs Require Import Base FloatLemmas FloatErr SeriesProofs LastNProofs IndicatorProofs MeanProofs.
Import ListNotations.

(** Every close of the series is a close of an update. *)
Section Closes.
  Context {M : machine} (p : Z) (Hp : (0 < p)%Z) (Q : flt -> Prop).

  Lemma extend_closes ser u : Forall (fun t => Q (close t)) ser -> Q (close u) ->
    Forall (fun t => Q (close t)) (extend p ser u).
  Proof.
    intros Hs Hu. unfold extend. destruct (rev ser) as [|t older] eqn:E.
    - constructor; [exact Hu|constructor].
    - assert (Ht : Q (close t)).
      { rewrite Forall_forall in Hs. apply Hs. rewrite <- (rev_involutive ser), E. apply in_rev. rewrite rev_involutive. left. reflexivity. }
      destruct (_ <? _)%Z.
      + apply Forall_app. split; [exact Hs|]. apply Forall_app. split; [|constructor; [exact Hu|constructor]].
        rewrite flats_map. apply Forall_forall. intros x Hx. apply in_map_iff in Hx as (i & <- & _). exact Ht.
      + apply Forall_app. split; [|constructor; [exact Hu|constructor]].
        rewrite Forall_forall in *. intros x Hx. apply Hs. rewrite <- (rev_involutive ser), E. cbn [rev].
        apply in_or_app. left. exact Hx.
  Qed.

  Lemma series_closes us : ordered timestamp_sec us -> Forall (fun t => Q (close t)) us ->
    Forall (fun t => Q (close t)) (series p us).
  Proof.
    induction us as [|u us IH] using rev_ind; intros Ho Hq; [constructor|].
    rewrite (series_extend p Hp us u Ho). apply ordered_snoc in Ho as [Ho _].
    apply Forall_app in Hq as (H1 & H2). apply extend_closes; [auto|]. inversion H2; assumption.
  Qed.
End Closes.

(** The invariant rule with a count of the updates that replaced the newest tick. *)
Section Counting.
  Context {M : machine} {S : Type} (handler : S -> list ohlc_tick -> tick_event -> outcome S).
  Context (n : Z) (Hn : (0 < n)%Z) (p : Z) (Hp : (0 < p)%Z).
  Context (P : nat -> S -> list ohlc_tick -> Prop) (Q : flt -> Prop).
  Context (Hmono : forall c s ser, P c s ser -> P (Datatypes.S c) s ser).
  Context (Hadd : forall c s ser t, P c s ser ->
            exists s', handler s (window n (ser ++ [t])) (add_event n ser t) = Done s' /\ P c s' (ser ++ [t])).
  Context (Hupd : forall c s ser t0 t1, P c s (ser ++ [t0]) -> Q (close t0) ->
            exists s', handler s (window n (ser ++ [t1])) (TickUpdated t0 t1) = Done s' /\ P (Datatypes.S c) s' (ser ++ [t1])).

  Lemma update_count c us s u :
    ordered timestamp_sec (us ++ [u]) -> Forall (fun t => Q (close t)) us -> P c s (series p us) ->
    exists s', LastN_Update handler n p (window n (series p us), s) u = Done (window n (series p (us ++ [u])), s')
               /\ P (Datatypes.S c) s' (series p (us ++ [u])).
  Proof.
    intros Ho HQ HP. assert (Hser := series_closes p Hp Q us (proj1 (proj1 (ordered_snoc _ _ _) Ho)) HQ).
    rewrite (Update_spec handler n Hn p Hp _ _ _ (series_next p Hp us u Ho)), (series_extend p Hp us u Ho).
    unfold update_spec, extend.
    destruct (rev (series p us)) as [|t older] eqn:E.
    - assert (E0 : series p us = []) by (rewrite <- (rev_involutive (series p us)), E; reflexivity).
      rewrite E0 in *. destruct (Hadd c s [] (new_tick p u) HP) as (s1 & E1 & H1).
      exists s1. unfold add1. rewrite E1. split; [reflexivity|]. apply Hmono. exact H1.
    - destruct (timestamp_sec t <? bucket_of p u)%Z.
      + destruct (adds_inv handler n (P c) (Hadd c) (flats p (gap p t u) t ++ [new_tick p u]) _ _ HP) as (s1 & E1 & H1).
        exists s1. rewrite E1. split; [reflexivity|]. apply Hmono. exact H1.
      + assert (E0 : series p us = rev older ++ [t]) by (rewrite <- (rev_involutive (series p us)), E; reflexivity).
        rewrite E0 in HP, Hser. apply Forall_app in Hser as (_ & Ht). apply Forall_cons_iff in Ht as (Ht & _).
        destruct (Hupd c s (rev older) t (merge_tick t u) HP Ht) as (s1 & E1 & H1).
        exists s1. rewrite E1. split; [reflexivity|exact H1].
  Qed.

  Theorem run_updates_count s0 us :
    P 0%nat s0 [] -> ordered timestamp_sec us -> Forall (fun t => Q (close t)) us ->
    exists s, foldM (LastN_Update handler n p) ([], s0) us = Done (window n (series p us), s)
              /\ P (length us) s (series p us).
  Proof.
    intros H0. induction us as [|u us IH] using rev_ind; intros Ho HQ.
    - exists s0. unfold window. rewrite lastn_short by (cbn; lia). split; [reflexivity|exact H0].
    - assert (Ho' := Ho). apply ordered_snoc in Ho' as [Ho1 _].
      apply Forall_app in HQ as (HQ & _). destruct (IH Ho1 HQ) as (s & E & H).
      rewrite foldM_snoc, E. cbn [bind]. rewrite app_length, Nat.add_1_r. apply update_count; auto.
  Qed.
End Counting.

Local Open Scope R_scope.

Lemma Rsum_bound (l : list R) B : Forall (fun x => Rabs x <= B) l -> Rabs (Rsum l) <= INR (length l) * B.
Proof.
  induction 1 as [|x l Hx _ IH]; cbn [Rsum fold_right length].
  - rewrite Rabs_R0. cbn. lra.
  - rewrite S_INR. eapply Rle_trans; [apply Rabs_triang|]. unfold Rsum in IH. lra.
Qed.

Definition u24 : R := / 16777216.
Lemma u24_val : bpow radix2 (-24) = u24.
Proof. unfold u24. reflexivity. Qed.

Lemma eta_small k : (-100 <= k)%Z -> bpow radix2 (-150) <= u24 * bpow radix2 k / 67108864.
Proof.
  intros Hk. rewrite <- u24_val. replace (/ 67108864)%R with (bpow radix2 (-26)) by reflexivity.
  unfold Rdiv. replace (/ 67108864)%R with (bpow radix2 (-26)) by reflexivity.
  rewrite <- !bpow_plus. apply bpow_le. lia.
Qed.

(** One event of the running sum: s is the float sum, S the exact one, m a bound on the number of
    values, c the number of events so far. *)
Lemma sum_event k (m c : R) (s D : f32) (S d : R) :
  (-100 <= k <= 100)%Z -> 1 <= m <= 2 ^ 20 -> 0 <= c -> c + 1 <= 2 ^ 23 ->
  is_finite s = true -> is_finite D = true ->
  Rabs S <= m * bpow radix2 k -> Rabs (S + d) <= m * bpow radix2 k ->
  Rabs (B2R s - S) <= c * (2 * u24) * (m + 6) * bpow radix2 k ->
  Rabs (B2R D - d) <= 2 * u24 * bpow radix2 k + bpow radix2 (-150) ->
  let s' := Bplus mode_NE s D in
  is_finite s' = true /\ Rabs (B2R s' - (S + d)) <= (c + 1) * (2 * u24) * (m + 6) * bpow radix2 k.
Proof.
  intros Hk Hm Hc Hc1 Fs FD HS HS' Hs HD. cbv zeta.
  pose proof (eta_small k ltac:(lia)) as Eta. pose proof (bpow_gt_0 radix2 k) as HB.
  set (B := bpow radix2 k) in *. set (eta := bpow radix2 (-150)) in *.
  assert (Heta : 0 < eta) by apply bpow_gt_0.
  unfold u24 in *.
  assert (HE : c * (2 * / 16777216) <= 1) by lra.
  set (E := c * (2 * / 16777216) * (m + 6) * B) in *.
  assert (HEb : E <= (m + 6) * B).
  { unfold E. rewrite Rmult_assoc. rewrite <- (Rmult_1_l ((m + 6) * B)) at 2.
    apply Rmult_le_compat_r; [|exact HE]. apply Rmult_le_pos; lra. }
  assert (HmB : B <= m * B) by (rewrite <- (Rmult_1_l B) at 1; apply Rmult_le_compat_r; lra).
  assert (HmB2 : m * B <= 2 ^ 20 * B) by (apply Rmult_le_compat_r; lra).
  assert (Hsum : Rabs (B2R s + B2R D) <= (2 * m + 7) * B).
  { replace (B2R s + B2R D) with ((S + d) + (B2R s - S) + (B2R D - d)) by ring.
    eapply Rle_trans; [apply Rabs_triang|]. eapply Rle_trans; [apply Rplus_le_compat_r, Rabs_triang|].
    rewrite Rmult_plus_distr_r in HEb |- *. lra. }
  pose proof (Bplus_correct 24 128 _ _ mode_NE s D Fs FD) as H. cbn [round_mode] in H.
  rewrite (no_overflow _ (k + 22)) in H; [|lia|].
  2: { eapply Rle_trans; [exact Hsum|]. rewrite bpow_plus. fold B. rewrite (Rmult_comm B).
       apply Rmult_le_compat_r; [lra|]. change (bpow radix2 22) with 4194304. lra. }
  destruct H as (HR & HF & _). split; [exact HF|].
  destruct (rnd_err (B2R s + B2R D)) as (dd & ee & Er & Hd & He).
  change (round radix2 (SpecFloat.fexp 24 128) (round_mode mode_NE) (B2R s + B2R D)) with (rnd (B2R s + B2R D)) in HR.
  rewrite HR, Er. rewrite u24_val in Hd. unfold u24 in Hd. fold eta in He.
  replace ((B2R s + B2R D) * (1 + dd) + ee - (S + d))
    with ((B2R s - S) + (B2R D - d) + (B2R s + B2R D) * dd + ee) by ring.
  assert (Hp : Rabs ((B2R s + B2R D) * dd) <= (2 * m + 7) * B * / 16777216).
  { rewrite Rabs_mult. apply Rmult_le_compat; auto using Rabs_pos. }
  eapply Rle_trans; [apply Rabs_triang|].
  eapply Rle_trans; [apply Rplus_le_compat_r, Rabs_triang|].
  eapply Rle_trans; [apply Rplus_le_compat_r, Rplus_le_compat_r, Rabs_triang|].
  replace ((c + 1) * (2 * / 16777216) * (m + 6) * B) with (E + 2 * / 16777216 * (m * B + 6 * B)) by (unfold E; ring).
  replace ((2 * m + 7) * B) with (2 * (m * B) + 7 * B) in Hp by ring.
  lra.
Qed.

Section Sma.
  Context (lm : libm) (as_ : bool).
  Local Notation I := (ieee lm as_).
  Context (n : Z) (Hn : (0 < n <= 2 ^ 20)%Z) (p : Z) (Hp : (0 < p)%Z) (k : Z) (Hk : (-100 <= k <= 100)%Z).

  Definition price_within (x : f32) : Prop := is_finite x = true /\ Rabs (B2R x) <= bpow radix2 k.

  Definition exact_sum (ser : list (@ohlc_tick I)) : R :=
    Rsum (map (fun t : @ohlc_tick I => B2R (close t : f32)) (lastn (Z.to_nat n) ser)).

  Definition drift (c : nat) (s : f32) (ser : list (@ohlc_tick I)) : Prop :=
    Forall (fun t : @ohlc_tick I => price_within (close t)) ser -> (Z.of_nat (c + length ser) <= 2 ^ 23)%Z ->
    is_finite s = true /\
    Rabs (B2R s - exact_sum ser)
      <= INR (c + length ser) * (2 * u24) * (INR (Nat.min (Z.to_nat n) (length ser)) + 6) * bpow radix2 k.

  Lemma B_pos : 0 < bpow radix2 k. Proof. apply bpow_gt_0. Qed.

  Lemma drift_mono c s ser : drift c s ser -> drift (S c) s ser.
  Proof.
    intros H HF HL. destruct (H HF ltac:(lia)) as (F & E). split; [exact F|].
    eapply Rle_trans; [exact E|]. pose proof B_pos.
    apply Rmult_le_compat_r; [lra|]. apply Rmult_le_compat_r; [pose proof (pos_INR (Nat.min (Z.to_nat n) (length ser))); lra|].
    apply Rmult_le_compat_r; [unfold u24; lra|]. apply le_INR. lia.
  Qed.

  Lemma lastn_within ser : Forall (fun t : @ohlc_tick I => price_within (close t)) ser ->
    Rabs (exact_sum ser) <= INR (Nat.min (Z.to_nat n) (length ser)) * bpow radix2 k.
  Proof.
    intros H. unfold exact_sum. rewrite <- (lastn_length (Z.to_nat n) ser).
    rewrite <- (map_length (fun t : @ohlc_tick I => B2R (close t : f32))). apply Rsum_bound. apply Forall_map.
    unfold lastn. apply Forall_forall. intros t Ht. rewrite Forall_forall in H.
    apply H. rewrite <- (firstn_skipn (length ser - Z.to_nat n) ser). apply in_or_app. right. exact Ht.
  Qed.

  Lemma minus_within (x y : f32) : price_within x -> price_within y ->
    is_finite (Bminus mode_NE x y) = true /\
    Rabs (B2R (Bminus mode_NE x y) - (B2R x - B2R y)) <= 2 * u24 * bpow radix2 k + bpow radix2 (-150).
  Proof.
    intros Hx Hy. destruct (Bminus_bnd k x y ltac:(lia) Hx Hy) as ((F & _) & E). split; [exact F|].
    rewrite E. destruct (rnd_err (B2R x - B2R y)) as (d & e & Er & Hd & He). rewrite Er.
    replace ((B2R x - B2R y) * (1 + d) + e - (B2R x - B2R y)) with ((B2R x - B2R y) * d + e) by ring.
    eapply Rle_trans; [apply Rabs_triang|]. apply Rplus_le_compat; [|exact He].
    rewrite Rabs_mult, u24_val in *. rewrite (Rmult_comm 2), Rmult_assoc, Rmult_comm.
    apply Rmult_le_compat; auto using Rabs_pos.
    unfold Rminus. eapply Rle_trans; [apply Rabs_triang|]. rewrite Rabs_Ropp. destruct Hx, Hy. lra.
  Qed.

  (** One event in terms of the invariant: l is the new length of the series. *)
  Lemma drift_step (c0 c1 m0 m1 : nat) (s D : f32) (S0 d : R) :
    (c1 = c0 + 1)%nat -> (Z.of_nat c1 <= 2 ^ 23)%Z -> (m0 <= m1)%nat -> (1 <= m1 <= Z.to_nat n)%nat ->
    is_finite s = true -> is_finite D = true ->
    Rabs S0 <= INR m0 * bpow radix2 k -> Rabs (S0 + d) <= INR m1 * bpow radix2 k ->
    Rabs (B2R s - S0) <= INR c0 * (2 * u24) * (INR m0 + 6) * bpow radix2 k ->
    Rabs (B2R D - d) <= 2 * u24 * bpow radix2 k + bpow radix2 (-150) ->
    let s' := Bplus mode_NE s D in
    is_finite s' = true /\ Rabs (B2R s' - (S0 + d)) <= INR c1 * (2 * u24) * (INR m1 + 6) * bpow radix2 k.
  Proof.
    intros -> Hc Hm Hm1 Fs FD HS HS' Hs HD. pose proof B_pos as HB.
    assert (M01 : INR m0 <= INR m1) by (apply le_INR; exact Hm).
    assert (M1 : 1 <= INR m1) by (change 1 with (INR 1); apply le_INR; lia).
    assert (M2 : INR m1 <= 2 ^ 20).
    { rewrite INR_IZR_INZ. replace (2 ^ 20)%R with (IZR (2 ^ 20)) by (change (IZR (2 ^ 20)) with 1048576; lra). apply IZR_le. lia. }
    rewrite plus_INR. change (INR 1) with 1. apply (sum_event k (INR m1) (INR c0) s D S0 d); auto.
    - apply pos_INR.
    - rewrite <- S_INR, INR_IZR_INZ. replace (2 ^ 23)%R with (IZR (2 ^ 23)) by (change (IZR (2 ^ 23)) with 8388608; lra). apply IZR_le. lia.
    - eapply Rle_trans; [exact HS|]. apply Rmult_le_compat_r; lra.
    - eapply Rle_trans; [exact Hs|]. apply Rmult_le_compat_r; [lra|]. apply Rmult_le_compat_l; [|lra].
      apply Rmult_le_pos; [apply pos_INR|unfold u24; lra].
  Qed.

  Lemma drift_add c s ser t : drift c s ser ->
    exists s', @sma_handler I s (window n (ser ++ [t])) (add_event n ser t) = Done s' /\ drift c s' (ser ++ [t]).
  Proof.
    intros H. eexists. split; [reflexivity|]. intros HF HL.
    rewrite app_length in HL |- *. cbn [length] in HL |- *.
    apply Forall_app in HF as (HF & Ht). assert (Hx : price_within (close t)) by (inversion Ht; assumption).
    destruct (H HF ltac:(lia)) as (F & E). pose proof (lastn_within ser HF) as HS.
    pose proof (lastn_within (ser ++ [t]) ltac:(apply Forall_app; auto)) as HS'.
    rewrite app_length in HS'. cbn [length] in HS'.
    unfold add_event. destruct (Nat.ltb_spec (length ser) (Z.to_nat n)) as [Hl|Hl].
    - assert (ES : exact_sum (ser ++ [t]) = exact_sum ser + B2R (close t : f32)).
      { unfold exact_sum. rewrite (lastn_snoc_short _ ser t Hl), map_app, Rsum_app. cbn. f_equal. apply Rplus_0_r. }
      rewrite ES in *.
      apply (drift_step (c + length ser) (c + (length ser + 1)) (Nat.min (Z.to_nat n) (length ser)) (Nat.min (Z.to_nat n) (length ser + 1)) s (close t)); auto; try lia.
      + apply Hx.
      + rewrite Rminus_diag_eq by reflexivity. rewrite Rabs_R0. pose proof B_pos. pose proof (bpow_gt_0 radix2 (-150)). unfold u24. lra.
    - set (r := nth (length ser - Z.to_nat n) ser t).
      assert (Hr : price_within (close r)).
      { rewrite Forall_forall in HF. apply HF. apply nth_In. lia. }
      assert (ES : exact_sum (ser ++ [t]) = exact_sum ser + (B2R (close t : f32) - B2R (close r : f32))).
      { unfold exact_sum. rewrite lastn_snoc_full by lia. rewrite map_app, Rsum_app.
        assert (Hh : r = hd t (lastn (Z.to_nat n) ser)) by (unfold r, lastn; rewrite hd_skipn; reflexivity).
        rewrite Hh. destruct (lastn (Z.to_nat n) ser) as [|r1 w] eqn:Ew.
        - apply (f_equal (@length _)) in Ew. rewrite lastn_length in Ew. cbn in Ew. lia.
        - cbn [hd tl map]. unfold Rsum. cbn. ring. }
      rewrite ES in *. destruct (minus_within _ _ Hx Hr) as (FD & ED).
      apply (drift_step (c + length ser) (c + (length ser + 1)) (Nat.min (Z.to_nat n) (length ser)) (Nat.min (Z.to_nat n) (length ser + 1)) s (Bminus mode_NE (close t) (close r))); auto; lia.
  Qed.

  Lemma drift_upd c s ser t0 t1 : drift c s (ser ++ [t0]) ->
    price_within (close t0) ->
    exists s', @sma_handler I s (window n (ser ++ [t1])) (TickUpdated t0 t1) = Done s' /\ drift (S c) s' (ser ++ [t1]).
  Proof.
    intros H Ht0. eexists. split; [reflexivity|]. intros HF HL.
    rewrite app_length in HL |- *. cbn [length] in HL |- *.
    pose proof (lastn_within _ HF) as HS'. rewrite app_length in HS'. cbn [length] in HS'.
    apply Forall_app in HF as (HF & Ht). assert (Hx : price_within (close t1)) by (inversion Ht; assumption).
    assert (HF0 : Forall (fun t : @ohlc_tick I => price_within (close t)) (ser ++ [t0])) by (apply Forall_app; auto).
    destruct (H HF0) as (F & E); [rewrite app_length; cbn [length]; lia|].
    pose proof (lastn_within _ HF0) as HS.
    rewrite app_length in E, HS. cbn [length] in E, HS.
    destruct (minus_within _ _ Hx Ht0) as (FD & ED).
    assert (ES : exact_sum (ser ++ [t1]) = exact_sum (ser ++ [t0]) + (B2R (close t1 : f32) - B2R (close t0 : f32))).
    { unfold exact_sum. replace (Z.to_nat n) with (S (Z.to_nat n - 1)) by lia.
      rewrite !lastn_snoc_S, !map_app, !Rsum_app. unfold Rsum. cbn. ring. }
    rewrite ES in *.
    apply (drift_step (c + (length ser + 1)) (S c + (length ser + 1)) (Nat.min (Z.to_nat n) (length ser + 1)) (Nat.min (Z.to_nat n) (length ser + 1)) s (Bminus mode_NE (close t1) (close t0))); auto; lia.
  Qed.

  (** Dividing by the number of ticks. *)
  Lemma avg_err (c m : nat) (s : f32) (S0 : R) :
    (2 <= c)%nat -> (Z.of_nat c <= 2 ^ 23)%Z -> (1 <= m <= Z.to_nat n)%nat -> is_finite s = true ->
    Rabs S0 <= INR m * bpow radix2 k ->
    Rabs (B2R s - S0) <= INR c * (2 * u24) * (INR m + 6) * bpow radix2 k ->
    is_finite (Bdiv mode_NE s (f32_of_Z (Z.of_nat m))) = true /\
    Rabs (B2R (Bdiv mode_NE s (f32_of_Z (Z.of_nat m))) - S0 / INR m) <= INR c * / 1048576 * bpow radix2 k.
  Proof.
    intros Hc Hc2 Hm Fs HS Hs. pose proof B_pos as HB. pose proof (eta_small k ltac:(lia)) as Eta.
    set (B := bpow radix2 k) in *. set (eta := bpow radix2 (-150)) in *.
    destruct (ofZ_finite (Z.of_nat m) ltac:(lia)) as (Fm & Rm). rewrite <- INR_IZR_INZ in Rm.
    assert (M1 : 1 <= INR m) by (change 1 with (INR 1); apply le_INR; lia).
    assert (C2 : 2 <= INR c) by (change 2 with (INR 2); apply le_INR; lia).
    assert (C3 : INR c <= 8388608).
    { rewrite INR_IZR_INZ. change 8388608 with (IZR (2 ^ 23)). apply IZR_le. lia. }
    unfold u24 in *.
    assert (Hinv : 0 < / INR m <= 1).
    { split; [apply Rinv_0_lt_compat; lra|]. rewrite <- Rinv_1. apply Rinv_le_contravar; lra. }
    assert (Hdiff : Rabs (B2R s / INR m - S0 / INR m) <= INR c * (14 * / 16777216) * B).
    { unfold Rdiv. rewrite <- Rmult_minus_distr_r, Rabs_mult, (Rabs_pos_eq (/ INR m)) by lra.
      eapply Rle_trans; [apply Rmult_le_compat_r; [lra|exact Hs]|].
      replace (INR c * (2 * / 16777216) * (INR m + 6) * B * / INR m)
        with (INR c * (2 * / 16777216) * B * (1 + 6 * / INR m)) by (field; lra).
      replace (INR c * (14 * / 16777216) * B) with (INR c * (2 * / 16777216) * B * 7) by ring.
      apply Rmult_le_compat_l; [|lra]. apply Rmult_le_pos; [apply Rmult_le_pos|]; lra. }
    assert (HSm : Rabs (S0 / INR m) <= B).
    { unfold Rdiv. rewrite Rabs_mult, (Rabs_pos_eq (/ INR m)) by lra.
      replace B with (INR m * B * / INR m) by (field; lra). apply Rmult_le_compat_r; lra. }
    assert (Hq : Rabs (B2R s / INR m) <= B + INR c * (14 * / 16777216) * B).
    { replace (B2R s / INR m) with (S0 / INR m + (B2R s / INR m - S0 / INR m)) by ring.
      eapply Rle_trans; [apply Rabs_triang|]. lra. }
    assert (HcB : INR c * B <= 8388608 * B) by (apply Rmult_le_compat_r; lra).
    assert (HcB2 : 2 * B <= INR c * B) by (apply Rmult_le_compat_r; lra).
    replace (INR c * (14 * / 16777216) * B) with (14 * / 16777216 * (INR c * B)) in Hq, Hdiff by ring.
    assert (Hm0 : B2R (f32_of_Z (Z.of_nat m)) <> 0) by (rewrite Rm; lra).
    pose proof (Bdiv_correct 24 128 _ _ mode_NE s (f32_of_Z (Z.of_nat m)) Hm0) as H. cbn [round_mode] in H.
    rewrite Rm in H. rewrite (no_overflow _ (k + 3)) in H; [|lia|].
    2: { eapply Rle_trans; [exact Hq|]. rewrite bpow_plus. fold B. change (bpow radix2 3) with 8. lra. }
    destruct H as (HR & HF & _). rewrite Fs in HF. split; [exact HF|].
    change (round radix2 (SpecFloat.fexp 24 128) (round_mode mode_NE) (B2R s / INR m)) with (rnd (B2R s / INR m)) in HR.
    destruct (rnd_err (B2R s / INR m)) as (dd & ee & Er & Hd & He).
    rewrite HR, Er. rewrite u24_val in Hd. unfold u24 in Hd. fold eta in He.
    replace (B2R s / INR m * (1 + dd) + ee - S0 / INR m)
      with ((B2R s / INR m - S0 / INR m) + B2R s / INR m * dd + ee) by ring.
    assert (Hp1 : Rabs (B2R s / INR m * dd) <= (B + 14 * / 16777216 * (INR c * B)) * / 16777216).
    { rewrite Rabs_mult. apply Rmult_le_compat; auto using Rabs_pos. }
    eapply Rle_trans; [apply Rabs_triang|]. eapply Rle_trans; [apply Rplus_le_compat_r, Rabs_triang|].
    replace (INR c * / 1048576 * B) with (/ 1048576 * (INR c * B)) by ring. lra.
  Qed.
End Sma.
