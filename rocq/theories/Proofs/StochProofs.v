(** The stochastic oscillator: extrema, %K and its averages. *)
From Coq Require Import Reals ZArith Bool List Lia Lra.
From Flocq Require Import Core BinarySingleNaN Relative.
From Verif.Model Require Import Outcome Machine Types Indicators MachineR MachineIEEE.
From Verif.Spec Require Import SeriesSpec IndicatorSpec.
From Verif.Proofs Require Import Base FloatLemmas SeriesProofs LastNProofs OrderLaws SeriesValid HelperProofs MinProofs MeanProofs IndicatorProofs.
Import ListNotations.

Lemma prefixes_snoc {A} (l : list A) x : prefixes (l ++ [x]) = prefixes l ++ [l ++ [x]].
Proof.
  unfold prefixes. rewrite app_length. cbn [length]. rewrite seq_app, map_app. cbn [seq map].
  replace (1 + length l)%nat with (length (l ++ [x])) by (rewrite app_length; cbn; lia).
  rewrite firstn_all. f_equal. apply map_ext_in. intros i Hi. apply in_seq in Hi.
  rewrite firstn_app. replace (i - length l)%nat with 0%nat by lia. cbn [firstn]. rewrite app_nil_r. reflexivity.
Qed.

Section Stoch.
  Context {M : machine} (O : real_order M).
  Context (n : Z) (Hn : (0 < n)%Z).
  Notation num := (num O). Notation val := (val O).

  Definition num_tick (t : ohlc_tick) : Prop := num (low t) = true /\ num (high t) = true.

  Definition stoch_I (s : stoch_state) (ser : list ohlc_tick) : Prop :=
    stoch_ok n s ser /\
    ((forall t, In t ser -> num_tick t) ->
     sm_inv n (st_min s) (map low ser) /\ sm_inv n (st_max s) (map (fun t => fopp (high t)) ser)) /\
    (forall ser0 t, ser = ser0 ++ [t] -> latest_k s = k_of (sm_Get (st_min s)) (sx_Get (st_max s)) (close t)).

  Lemma stoch_I_add s ser t : stoch_I s ser ->
    exists s', stoch_handler s (window 1 (ser ++ [t])) (add_event 1 ser t) = Done s' /\ stoch_I s' (ser ++ [t]).
  Proof.
    intros (H1 & H2 & H3). rewrite (stoch_step n s ser t H1).
    destruct (stoch_New n Hn s ser t H1) as (mn & mx & k & E1 & E2 & Ek & E & Ok). rewrite E. eexists. split; [reflexivity|].
    split; [exact Ok|]. cbn [st_min st_max latest_k]. split.
    - intros Hnum.
      assert (Hser : forall t, In t ser -> num_tick t) by (intros; apply Hnum; apply in_or_app; auto).
      destruct (H2 Hser) as [I1 I2]. rewrite !map_app. cbn [map]. split.
      + destruct (sm_inv_add O n (st_min s) (map low ser) (low t) Hn) as (x & X1 & X2); auto; [|congruence].
        intros y Hy. change [low t] with (map low [t]) in Hy. rewrite <- map_app in Hy.
        apply in_map_iff in Hy as (z & <- & Hz). apply Hnum. exact Hz.
      + destruct (sm_inv_add O n (st_max s) (map (fun t => fopp (high t)) ser) (fopp (high t)) Hn) as (x & X1 & X2); auto;
          [|unfold sx_AddNewValue in E2; congruence].
        intros y Hy. change [fopp (high t)] with (map (fun t => fopp (high t)) [t]) in Hy. rewrite <- map_app in Hy.
        apply in_map_iff in Hy as (z & <- & Hz). apply (val_opp M O). apply Hnum. exact Hz.
    - intros ser0 t0 Es. apply app_inj_tail in Es as [_ ->]. exact Ek.
  Qed.

  Theorem stoch_run p us : (0 < p)%Z -> ordered timestamp_sec us ->
    exists s, foldM (stoch_Update p) ([], stoch0 n) us = Done (window 1 (series p us), s) /\ stoch_I s (series p us).
  Proof.
    intros Hp Ho.
    destruct (run_replace stoch_handler 1 ltac:(lia) p Hp (stoch0 n) stoch_I) with (us := us) as (s & E & _ & H); auto.
    - split; [apply stoch_ok0; exact Hn|]. split.
      + intros _. cbn [stoch0 st_min st_max map].
        assert (K := sm_inv_new n _ (NewSlidingMin_ok n Hn) Hn). auto.
      + intros [|? ?] t E; discriminate.
    - apply stoch_I_add.
    - intros s ser t0 t1 s' (H & _). apply (stoch_upd n Hn); auto.
    - exists s. auto.
  Qed.

  (** The extrema are those of the last n ticks. *)
  Lemma stoch_extrema s ser : stoch_I s ser -> ser <> [] -> (forall t, In t ser -> num_tick t) ->
    is_min (sm_Get (st_min s)) (map low (lastn (Z.to_nat n) ser)) /\
    is_max (sx_Get (st_max s)) (map high (lastn (Z.to_nat n) ser)).
  Proof.
    intros (_ & H2 & _) Hne Hnum. destruct (H2 Hnum) as [I1 I2]. split.
    - rewrite <- lastn_map. apply (sm_inv_min O); auto.
      + destruct ser; [congruence|discriminate].
      + intros y Hy. apply in_map_iff in Hy as (z & <- & Hz). apply Hnum. exact Hz.
    - unfold sx_Get. apply (opp_max O).
      + intros y Hy. apply in_map_iff in Hy as (z & <- & Hz). apply Hnum. apply lastn_in in Hz. exact Hz.
      + rewrite map_map. rewrite <- (lastn_map (fun t => fopp (high t))). apply (sm_inv_min O); auto.
        * destruct ser; [congruence|discriminate].
        * intros y Hy. apply in_map_iff in Hy as (z & <- & Hz). apply (val_opp M O). apply Hnum. exact Hz.
  Qed.

  (** The current price lies between the extrema. *)
  Lemma price_between s ser0 t : stoch_I s (ser0 ++ [t]) ->
    (forall x, In x (ser0 ++ [t]) -> valid_tick x) ->
    let lo := sm_Get (st_min s) in let hi := sx_Get (st_max s) in
    num lo = true /\ num hi = true /\ num (close t) = true /\
    (0 < val lo)%R /\ (val lo <= val (close t))%R /\ (val (close t) <= val hi)%R.
  Proof.
    intros HI Hall. cbv zeta. assert (Hv : valid_tick t) by (apply Hall; apply in_or_app; right; left; reflexivity).
    assert (Hnum : forall x, In x (ser0 ++ [t]) -> num_tick x).
    { intros x Hx. apply Hall in Hx. apply (valid_iff O) in Hx. unfold valid_val in Hx. split; tauto. }
    destruct (stoch_extrema s (ser0 ++ [t]) HI) as [[L1 L2] [X1 X2]]; [destruct ser0; discriminate|exact Hnum|].
    assert (Hin : In t (lastn (Z.to_nat n) (ser0 ++ [t]))).
    { replace (Z.to_nat n) with (S (Z.to_nat n - 1)) by lia. rewrite lastn_snoc_S. apply in_or_app. right. left. reflexivity. }
    specialize (L2 _ (in_map low _ _ Hin)). specialize (X2 _ (in_map high _ _ Hin)).
    apply in_map_iff in L1 as (a & Ea & Ha). apply lastn_in in Ha. apply Hall in Ha. apply (valid_iff O) in Ha.
    apply in_map_iff in X1 as (b & Eb & Hb). apply lastn_in in Hb. apply Hall in Hb. apply (valid_iff O) in Hb.
    apply (valid_iff O) in Hv. unfold valid_val in *. rewrite <- Ea, <- Eb in *.
    apply (leb_spec O) in L2; [|tauto|tauto]. apply (leb_spec O) in X2; [|tauto|tauto].
    repeat split; try tauto; lra.
  Qed.
End Stoch.

Lemma is_min_unique (sh : R -> String.string) as_ m l : @is_min (exact sh as_) m l -> m = min_of l.
Proof.
  intros [H1 H2]. destruct l as [|x l]; [destruct H1|]. cbn [min_of].
  destruct (fold_fmin (exact_order sh as_) l x eq_refl (fun _ _ => eq_refl)) as (_ & B2 & B3).
  assert (E : forall l x, fold_left (@fmin (exact sh as_)) l x = fold_left Rmin l x).
  { clear. induction l as [|a l IH]; intros x; [reflexivity|]. cbn [fold_left]. rewrite <- IH. f_equal.
    unfold fmin. cbn. destruct (Rlt_bool_spec a x); [rewrite Rmin_right; lra|rewrite Rmin_left; lra]. }
  rewrite E in *. cbn [val exact_order] in B3. specialize (B3 m H1). specialize (H2 _ B2). cbn in H2.
  destruct (Rle_bool_spec m (fold_left Rmin l x)); [lra|discriminate].
Qed.

Lemma is_max_unique (sh : R -> String.string) as_ m l : @is_max (exact sh as_) m l -> m = max_of l.
Proof.
  intros [H1 H2]. destruct l as [|x l]; [destruct H1|]. cbn [max_of].
  destruct (fold_fmax (exact_order sh as_) l x eq_refl (fun _ _ => eq_refl)) as (_ & B2 & B3).
  assert (E : forall l x, fold_left (@fmax (exact sh as_)) l x = fold_left Rmax l x).
  { clear. induction l as [|a l IH]; intros x; [reflexivity|]. cbn [fold_left]. rewrite <- IH. f_equal.
    unfold fmax. cbn. destruct (Rlt_bool_spec x a); [rewrite Rmax_right; lra|rewrite Rmax_left; lra]. }
  rewrite E in *. cbn [val exact_order] in B3. specialize (B3 m H1). specialize (H2 _ B2). cbn in H2.
  destruct (Rle_bool_spec (fold_left Rmax l x) m); [lra|discriminate].
Qed.

(** * Exact arithmetic *)
Section Exact.
  Context (sh : R -> String.string) (as_ : bool).
  Notation E := (exact sh as_).
  Notation O := (exact_order sh as_).
  Context (n : Z) (Hn : (0 < n)%Z).
  Local Open Scope R_scope.

  Notation percent_k := (percent_k sh as_ n).
  Notation fast_d := (fast_d sh as_ n).

  Definition stoch_X (s : @stoch_state E) (ser : list (@ohlc_tick E)) : Prop :=
    stoch_I O n s ser /\
    st_fast s = @mv_of E 3 (map percent_k (prefixes ser)) /\
    st_slow s = @mv_of E 3 (map fast_d (prefixes ser)).

  Lemma stoch_X_add s ser t : stoch_X s ser ->
    exists s', @stoch_handler E s (window 1 (ser ++ [t])) (add_event 1 ser t) = Done s' /\ stoch_X s' (ser ++ [t]).
  Proof.
    intros (H1 & H2 & H3). destruct (stoch_I_add O n Hn s ser t H1) as (s' & E1 & I1). exists s'. split; [exact E1|].
    split; [exact I1|]. destruct H1 as (H1 & _). rewrite (stoch_step n s ser t H1) in E1.
    destruct (stoch_New n Hn s ser t H1) as (mn & mx & k & F1 & F2 & Fk & F & Ok). rewrite F in E1.
    match type of E1 with Done ?x = _ => assert (s' = x) as Es by congruence end. clear E1 F.
    assert (Hk : k = percent_k (ser ++ [t])).
    { unfold percent_k. rewrite rev_app_distr. cbn [rev app].
      destruct (stoch_extrema O n Hn s' (ser ++ [t]) I1) as [X1 X2]; [destruct ser; discriminate|intros; split; reflexivity|].
      rewrite Es in X1, X2. cbn [st_min st_max] in X1, X2.
      apply is_min_unique in X1. apply is_max_unique in X2. rewrite <- X1, <- X2. exact Fk. }
    rewrite Es. cbn [st_fast st_slow]. rewrite !prefixes_snoc, !map_app. cbn [map].
    rewrite !(@mv_of_snoc E). rewrite H2, H3, Hk.
    split; [reflexivity|]. f_equal. rewrite <- (@mv_of_snoc E). rewrite (mean_of sh as_ 3) by lia. unfold fast_d.
    rewrite prefixes_snoc, map_app. reflexivity.
  Qed.

  Theorem stoch_run_exact p us : (0 < p)%Z -> ordered timestamp_sec us ->
    exists s, foldM (@stoch_Update E p) ([], stoch0 n) us = Done (window 1 (series p us), s) /\ stoch_X s (series p us).
  Proof.
    intros Hp Ho.
    destruct (run_replace (@stoch_handler E) 1 ltac:(lia) p Hp (stoch0 n) stoch_X) with (us := us) as (s & E1 & _ & H); auto.
    - split; [|split; reflexivity]. split; [apply stoch_ok0; exact Hn|]. split.
      + intros _. cbn [stoch0 st_min st_max map].
        assert (K := @sm_inv_new E n _ (@NewSlidingMin_ok E n Hn) Hn). auto.
      + intros [|? ?] t E1; discriminate.
    - apply stoch_X_add.
    - intros s ser t0 t1 s' ((H & _) & _). apply (stoch_upd n Hn); auto.
    - exists s. auto.
  Qed.

  Lemma k_range lo hi c : lo <= c <= hi -> 0 <= @k_of E lo hi c <= 100.
  Proof.
    intros H. unfold k_of, flit. cbn. destruct (Rlt_bool_spec (hi - lo) (1 / 1000000)) as [H1|H1]; [lra|].
    assert (0 < hi - lo) by lra. split.
    - apply Rle_mult_inv_pos; [|lra]. apply Rmult_le_pos; lra.
    - apply (Rmult_le_reg_r (hi - lo)); [lra|]. unfold Rdiv. rewrite Rmult_assoc, Rinv_l by lra. lra.
  Qed.
End Exact.

(** * IEEE: the range of %K, up to one unit in the last place *)
Section IEEE.
  Context (lm : libm) (as_ : bool).
  Notation I := (ieee lm as_).
  Local Open Scope R_scope.

  Lemma eps_bound : B2R (@flit I 1 1000000) > bpow radix2 (-20) /\ is_finite (@flit I 1 1000000) = true.
  Proof.
    unfold flit. cbn [fdiv fofZ ieee].
    assert (E : exists m e H, Bdiv mode_NE (f32_of_Z 1) (f32_of_Z 1000000) = B754_finite false m e H /\ m = 8796093%positive /\ e = (-43)%Z).
    { destruct (Bdiv mode_NE (f32_of_Z 1) (f32_of_Z 1000000)) as [s|s| |s m e H] eqn:E0;
        apply (f_equal B2SF) in E0; vm_compute in E0; try discriminate.
      injection E0 as <- <- <-. do 3 eexists. split; [reflexivity|]. split; reflexivity. }
    destruct E as (m & e & H & -> & -> & ->). split; [|reflexivity].
    unfold B2R, F2R. cbn [Defs.Fnum Defs.Fexp cond_Zopp].
    replace (bpow radix2 (-20)) with (8388608 * bpow radix2 (-43)).
    - apply Rlt_gt. apply Rmult_lt_compat_r; [apply bpow_gt_0|]. lra.
    - change 8388608 with (bpow radix2 23). rewrite <- bpow_plus. reflexivity.
  Qed.

  Lemma rnd_rel x : bpow radix2 (-126) <= x -> rnd x <= x * (1 + bpow radix2 (-24)).
  Proof.
    intros Hx. assert (H0 : 0 < x) by (pose proof (bpow_gt_0 radix2 (-126)); lra).
    pose proof (relative_error_N_FLT radix2 (-149) 24 ltac:(lia) (fun x => negb (Z.even x)) x) as H.
    assert (Hf : round radix2 (FLT_exp (-149) 24) (Znearest (fun x => negb (Z.even x))) x = rnd x).
    { reflexivity. }
    rewrite Hf in H. specialize (H ltac:(rewrite Rabs_pos_eq by lra; exact Hx)).
    rewrite (Rabs_pos_eq x) in H by lra. apply Rabs_le_inv in H.
    replace (/ 2 * bpow radix2 (- (24) + 1)) with (bpow radix2 (-24)) in H by (cbn; lra). lra.
  Qed.

  Lemma k_range_ieee (lo hi c : f32) :
    nneg 120 lo -> nneg 120 hi -> nneg 120 c -> B2R lo <= B2R c <= B2R hi ->
    is_finite (@k_of I lo hi c) = true /\ 0 <= B2R (@k_of I lo hi c) <= 100 + bpow radix2 (-17).
  Proof.
    intros Hlo Hhi Hc Hle. unfold k_of. cbn [fltb fsub fmul fdiv fofZ ieee].
    destruct (Bminus_nneg 120 hi lo ltac:(lia) Hhi Hlo ltac:(lra)) as [S1 S2].
    destruct (Bminus_nneg 120 c lo ltac:(lia) Hc Hlo ltac:(lra)) as [A1 A2].
    destruct eps_bound as [P1 P2].
    destruct (ofZ_finite 100 ltac:(lia)) as [F100 R100].
    destruct (ofZ_finite 50 ltac:(lia)) as [F50 R50].
    pose proof (bpow_gt_0 radix2 (-17)).
    set (s := Bminus mode_NE hi lo) in *. set (a := Bminus mode_NE c lo) in *.
    rewrite Bltb_ext by (apply finite_num; auto; apply S1). rewrite !ext_finite by (auto; apply S1).
    destruct (Rlt_bool_spec (B2R s) (B2R (@flit I 1 1000000))) as [H1|H1].
    - split; [exact F50|]. rewrite R50. lra.
    - assert (Hs : bpow radix2 (-20) < B2R s) by lra.
      assert (Hs0 : 0 < B2R s) by (pose proof (bpow_gt_0 radix2 (-20)); lra).
      assert (Has : B2R a <= B2R s) by (rewrite A2, S2; apply rnd_mono; lra).
      assert (N100 : nneg 7 (f32_of_Z 100)) by (split; [exact F100|rewrite R100; cbn; lra]).
      destruct (Bmult_nneg 7 120 (f32_of_Z 100) a ltac:(lia) N100 A1) as [X1 X2]. rewrite R100 in X2.
      set (x := Bmult mode_NE (f32_of_Z 100) a) in *.
      assert (Hx : B2R x <= 100 * B2R s * (1 + bpow radix2 (-24))).
      { rewrite X2. eapply Rle_trans; [apply (rnd_mono _ (100 * B2R s)); lra|]. apply rnd_rel.
        apply Rle_trans with (bpow radix2 (-20)); [apply bpow_le; lia|]. lra. }
      assert (Hq : 0 <= B2R x / B2R s <= 100 + bpow radix2 (-17)).
      { split; [apply Rle_mult_inv_pos; [apply X1|lra]|].
        apply (Rmult_le_reg_r (B2R s)); [lra|]. unfold Rdiv. rewrite Rmult_assoc, Rinv_l, Rmult_1_r by lra.
        eapply Rle_trans; [exact Hx|].
        replace (100 * B2R s * (1 + bpow radix2 (-24))) with ((100 + 100 * bpow radix2 (-24)) * B2R s) by ring.
        apply Rmult_le_compat_r; [lra|]. apply Rplus_le_compat_l.
        replace (bpow radix2 (-17)) with (128 * bpow radix2 (-24)) by (change 128 with (bpow radix2 7); rewrite <- bpow_plus; reflexivity).
        pose proof (bpow_gt_0 radix2 (-24)). lra. }
      pose proof (Bdiv_correct 24 128 _ _ mode_NE x s ltac:(lra)) as H2. cbn [round_mode] in H2.
      assert (G : generic_format radix2 fexp32 (100 + bpow radix2 (-17))).
      { replace (100 + bpow radix2 (-17)) with (F2R (Float radix2 13107201 (-17))).
        - apply generic_format_F2R. intros _. cbn [Defs.Fnum Defs.Fexp].
          unfold cexp, SpecFloat.fexp, SpecFloat.emin.
          assert (mag radix2 (F2R (Float radix2 13107201 (-17))) <= 7)%Z.
          { apply mag_le_bpow; [apply Rgt_not_eq; apply F2R_gt_0; cbn; lia|].
            rewrite Rabs_pos_eq by (apply F2R_ge_0; cbn; lia). unfold F2R. cbn. lra. }
          lia.
        - unfold F2R. cbn. lra. }
      assert (Hr : 0 <= rnd (B2R x / B2R s) <= 100 + bpow radix2 (-17)).
      { split; [apply rnd_nonneg; lra|]. apply round_le_generic; auto; try exact _. lra. }
      rewrite Rlt_bool_true in H2.
      2:{ rewrite Rabs_pos_eq by lra. eapply Rle_lt_trans; [apply Hr|].
          apply Rlt_trans with (bpow radix2 7); [cbn; lra|apply bpow_lt; lia]. }
      destruct H2 as (HR & HF & _). rewrite HF, HR. split; [apply X1|exact Hr].
  Qed.
End IEEE.
