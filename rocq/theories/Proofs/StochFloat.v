(** How far the float stochastic oscillator can be from the exact one. *)
From Coq Require Import Reals ZArith Bool List Lia Lra.
From Flocq Require Import Core BinarySingleNaN.
From Verif.Model Require Import Outcome Machine Types Indicators MachineR MachineIEEE.
From Verif.Spec Require Import SeriesSpec IndicatorSpec VolSpec StochSpec.
From Verif.Proofs Require Import VarFloat.
From Verif.Proofs Require Import Base FloatLemmas FloatErr SeriesProofs LastNProofs OrderLaws SeriesValid HelperProofs MinProofs MeanProofs IndicatorProofs StochProofs DriftProofs EmaDrift RsiFloat.
Import ListNotations.
Local Open Scope R_scope.

(** ** Means *)
Lemma Forall2_skipn {A B} (P : A -> B -> Prop) k : forall l m, Forall2 P l m -> Forall2 P (skipn k l) (skipn k m).
Proof.
  induction k as [|k IH]; intros l m H; [exact H|]. destruct H as [|x y l m Hxy H]; [constructor|]. cbn [skipn]. apply IH. exact H.
Qed.

Lemma Forall2_len {A B} (P : A -> B -> Prop) l m : Forall2 P l m -> length l = length m.
Proof. induction 1; cbn [length]; congruence. Qed.

Lemma Forall2_lastn {A B} (P : A -> B -> Prop) k l m : Forall2 P l m -> Forall2 P (lastn k l) (lastn k m).
Proof. intros H. unfold lastn. rewrite (Forall2_len P l m H). apply Forall2_skipn. exact H. Qed.

Lemma mean_close D xs ys : 0 <= D -> Forall2 (fun x y => Rabs (x - y) <= D) xs ys -> Rabs (mean xs - mean ys) <= D.
Proof.
  intros HD H. destruct xs as [|x xs].
  - inversion H; subst. cbn [mean]. rewrite Rminus_0_r, Rabs_R0. exact HD.
  - assert (Hne : ys <> []) by (inversion H; discriminate). rewrite (mean_eq (x :: xs)) by discriminate. rewrite (mean_eq ys Hne).
    rewrite <- (Forall2_len _ _ _ H). pose proof (INR_length_pos (x :: xs) ltac:(discriminate)) as HL.
    set (n := INR (length (x :: xs))) in *.
    assert (S : Rabs (Rsum (x :: xs) - Rsum ys) <= n * D).
    { unfold n. clear HL Hne n. induction H as [|a b l m Hab H IH]; [cbn; rewrite Rminus_0_r, Rabs_R0; lra|].
      cbn [length]. rewrite S_INR. change (Rsum (a :: l)) with (a + Rsum l). change (Rsum (b :: m)) with (b + Rsum m).
      replace (a + Rsum l - (b + Rsum m)) with ((a - b) + (Rsum l - Rsum m)) by ring.
      eapply Rle_trans; [apply Rabs_triang|]. lra. }
    replace (Rsum (x :: xs) / n - Rsum ys / n) with ((Rsum (x :: xs) - Rsum ys) * / n) by (unfold Rdiv; ring).
    rewrite Rabs_mult, (Rabs_pos_eq (/ n)) by (left; apply Rinv_0_lt_compat; exact HL).
    apply Rmult_le_reg_r with n; [exact HL|]. rewrite Rmult_assoc, Rinv_l by lra. lra.
Qed.

Lemma mean_range P Q l : P <= 0 <= Q -> Forall (fun x => P <= x <= Q) l -> P <= mean l <= Q.
Proof.
  intros H0 HF. destruct l as [|x l]; [exact H0|]. rewrite mean_eq by discriminate.
  pose proof (INR_length_pos (x :: l) ltac:(discriminate)) as HL. set (n := INR (length (x :: l))) in *.
  assert (S : n * P <= Rsum (x :: l) <= n * Q).
  { unfold n. clear HL n. induction HF as [|a m Ha HF IH]; [cbn; lra|].
    cbn [length]. rewrite S_INR. change (Rsum (a :: m)) with (a + Rsum m). lra. }
  split; apply Rmult_le_reg_r with n; try exact HL; unfold Rdiv; rewrite Rmult_assoc, Rinv_l by lra; lra.
Qed.

Section StochFloat.
  Context (lm : libm) (as_ : bool) (sh : R -> String.string) (as' : bool).
  Local Notation I := (ieee lm as_).
  Local Notation E := (exact sh as').
  Local Notation O := (ieee_order lm as_).
  Context (n : Z) (Hn : (0 < n)%Z).
  Local Notation real := (real_tick lm as_ sh as').

  (** ** One %K *)
  Lemma k_err (lo hi c : f32) : nneg 120 lo -> nneg 120 hi -> nneg 120 c -> B2R lo <= B2R c <= B2R hi ->
    B2R hi - B2R lo < / 2 ^ 20 \/ / 2 ^ 19 <= B2R hi - B2R lo ->
    is_finite (@k_of I lo hi c : f32) = true /\
    Rabs (B2R (@k_of I lo hi c : f32) - @k_of E (B2R lo) (B2R hi) (B2R c)) <= / 32768.
  Proof.
    intros Hlo Hhi Hc Hle Hsp. destruct (k_range_ieee lm as_ lo hi c Hlo Hhi Hc Hle) as (Fk & _). split; [exact Fk|]. clear Fk.
    unfold k_of. cbn [fltb fsub fmul fdiv fofZ ieee].
    destruct (Bminus_nneg 120 hi lo ltac:(lia) Hhi Hlo ltac:(lra)) as [S1 S2].
    destruct (Bminus_nneg 120 c lo ltac:(lia) Hc Hlo ltac:(lra)) as [A1 A2].
    destruct (eps_bound lm as_) as [P1 P2]. pose proof (eps_value lm as_) as Ev.
    set (eps := @flit I 1 1000000) in *. change (@flt I) with f32 in *.
    change (bpow radix2 (-20)) with (/ 1048576) in P1.
    assert (P3 : B2R eps < / 524288) by (rewrite Ev; change (bpow radix2 (-43)) with (/ 8796093022208); lra).
    replace (/ 2 ^ 20) with (/ 1048576) in Hsp by (f_equal; lra). replace (/ 2 ^ 19) with (/ 524288) in Hsp by (f_equal; lra).
    destruct (ofZ_finite 100 ltac:(lia)) as [F100 R100].
    destruct (ofZ_finite 50 ltac:(lia)) as [F50 R50].
    set (s := Bminus mode_NE hi lo) in *. set (a := Bminus mode_NE c lo) in *.
    rewrite Bltb_ext by (apply finite_num; auto; apply S1). rewrite !ext_finite by (auto; apply S1).
    unfold flit. cbn [exact fltb fsub fmul fdiv fofZ].
    destruct Hsp as [Hsp|Hsp].
    - assert (Hs : B2R s <= / 1048576) by (rewrite S2; change (/ 1048576) with (bpow radix2 (-20)); apply rnd_le_bpow; [lia|];
        change (bpow radix2 (-20)) with (/ 1048576); lra).
      rewrite !Rlt_bool_true by lra. rewrite R50, Rminus_diag_eq by lra. rewrite Rabs_R0. lra.
    - assert (Hs : / 524288 <= B2R s) by (rewrite S2; change (/ 524288) with (bpow radix2 (-19)); apply rnd_ge_bpow; [lia|];
        change (bpow radix2 (-19)) with (/ 524288); lra).
      rewrite !Rlt_bool_false by lra.
      set (H := B2R hi - B2R lo) in *. set (C := B2R c - B2R lo) in *.
      assert (HC : 0 <= C <= H) by (unfold C, H; lra).
      pose proof (rnd_abs_err H H ltac:(rewrite Rabs_pos_eq; lra)) as Es. rewrite <- S2 in Es. apply Rabs_le_inv in Es.
      pose proof (rnd_abs_err C C ltac:(rewrite Rabs_pos_eq; lra)) as Ea. rewrite <- A2 in Ea. apply Rabs_le_inv in Ea.
      assert (N100 : nneg 7 (f32_of_Z 100)) by (split; [exact F100|rewrite R100; cbn; lra]).
      destruct (Bmult_nneg 7 120 (f32_of_Z 100) a ltac:(lia) N100 A1) as [X1 X2]. rewrite R100 in X2.
      assert (Ha0 : 0 <= B2R a) by apply A1.
      pose proof (rnd_abs_err (100 * B2R a) (100 * B2R a) ltac:(rewrite Rabs_pos_eq; lra)) as Ex. rewrite <- X2 in Ex. apply Rabs_le_inv in Ex.
      set (x := Bmult mode_NE (f32_of_Z 100) a) in *.
      assert (Has : B2R a <= B2R s) by (rewrite A2, S2; apply rnd_mono; apply HC).
      pose proof (eta_small (-19) ltac:(lia)) as Eta. change (bpow radix2 (-19)) with (/ 524288) in Eta.
      set (eta := bpow radix2 (-150)) in *. assert (Heta : 0 < eta) by apply bpow_gt_0. unfold u24 in *.
      assert (Hq : 0 <= B2R x / B2R s <= bpow radix2 7).
      { change (bpow radix2 7) with 128. split; [apply Rle_mult_inv_pos; [apply X1|lra]|].
        apply (Rmult_le_reg_r (B2R s)); [lra|]. unfold Rdiv. rewrite Rmult_assoc, Rinv_l, Rmult_1_r by lra. lra. }
      pose proof (Bdiv_correct 24 128 _ _ mode_NE x s ltac:(lra)) as K. cbn [round_mode] in K.
      rewrite (no_overflow _ 7) in K by (try lia; rewrite Rabs_pos_eq; lra). destruct K as (KR & _).
      pose proof (rnd_abs_err (B2R x / B2R s) (bpow radix2 7) ltac:(rewrite Rabs_pos_eq; lra)) as Eq. rewrite <- KR in Eq.
      change (bpow radix2 7) with 128 in *. unfold u24 in Eq. fold eta in Eq.
      change (@fmul I (@fofZ I 100)) with (Bmult mode_NE (f32_of_Z 100)). change (Bmult mode_NE (f32_of_Z 100) a) with x.
      set (q := Bdiv mode_NE x s) in *.
      (* x / s against 100 C / H *)
      assert (D : Rabs (B2R x / B2R s - 100 * C / H) <= 310 * / 16777216).
      { replace (B2R x / B2R s - 100 * C / H) with ((B2R x - 100 * C / H * B2R s) * / B2R s) by (field; lra).
        rewrite Rabs_mult, (Rabs_pos_eq (/ B2R s)) by (left; apply Rinv_0_lt_compat; lra).
        apply Rmult_le_reg_r with (B2R s); [lra|]. rewrite Rmult_assoc, Rinv_l, Rmult_1_r by lra.
        assert (HQ : 0 <= C / H <= 1).
        { split; [apply Rle_mult_inv_pos; lra|]. apply Rmult_le_reg_r with H; [lra|]. unfold Rdiv. rewrite Rmult_assoc, Rinv_l by lra. lra. }
        replace (B2R x - 100 * C / H * B2R s) with ((B2R x - 100 * C) + - (C / H * (100 * (B2R s - H)))) by (field; lra).
        eapply Rle_trans; [apply Rabs_triang|]. rewrite Rabs_Ropp, Rabs_mult, (Rabs_pos_eq (C / H)) by lra.
        assert (T1 : C / H * Rabs (100 * (B2R s - H)) <= 1 * Rabs (100 * (B2R s - H))) by (apply Rmult_le_compat_r; [apply Rabs_pos|lra]).
        assert (T2 : Rabs (100 * (B2R s - H)) <= 100 * (/ 16777216 * H + eta)) by (apply Rabs_le; lra).
        assert (T3 : Rabs (B2R x - 100 * C) <= 100 * (/ 16777216 * H + eta) + / 16777216 * (100 * B2R a) + eta) by (apply Rabs_le; lra).
        lra. }
      apply Rabs_le_inv in D. apply Rabs_le_inv in Eq. apply Rabs_le. lra.
  Qed.

  (** ** Extrema as reals *)
  Lemma fold_Rmin_spec l : forall x, (fold_left Rmin l x = x \/ In (fold_left Rmin l x) l) /\ fold_left Rmin l x <= x /\ forall y, In y l -> fold_left Rmin l x <= y.
  Proof.
    induction l as [|a l IH]; intros x; cbn [fold_left]; [split; [left; reflexivity|]; split; [lra|]; intros y []|].
    destruct (IH (Rmin x a)) as (A & B & C). pose proof (Rmin_l x a). pose proof (Rmin_r x a). split; [|split].
    - destruct A as [A|A]; [|right; right; exact A]. rewrite A. unfold Rmin. destruct (Rle_dec x a); [left; reflexivity|right; left; reflexivity].
    - lra.
    - intros y [<-|Hy]; [lra|apply C; exact Hy].
  Qed.
  Lemma fold_Rmax_spec l : forall x, (fold_left Rmax l x = x \/ In (fold_left Rmax l x) l) /\ x <= fold_left Rmax l x /\ forall y, In y l -> y <= fold_left Rmax l x.
  Proof.
    induction l as [|a l IH]; intros x; cbn [fold_left]; [split; [left; reflexivity|]; split; [lra|]; intros y []|].
    destruct (IH (Rmax x a)) as (A & B & C). pose proof (Rmax_l x a). pose proof (Rmax_r x a). split; [|split].
    - destruct A as [A|A]; [|right; right; exact A]. rewrite A. unfold Rmax. destruct (Rle_dec x a); [right; left; reflexivity|left; reflexivity].
    - lra.
    - intros y [<-|Hy]; [lra|apply C; exact Hy].
  Qed.

  Lemma min_of_eq m l : In m l -> (forall y, In y l -> m <= y) -> min_of l = m.
  Proof.
    intros H1 H2. destruct l as [|x l]; [destruct H1|]. cbn [min_of]. destruct (fold_Rmin_spec l x) as (A & B & C).
    assert (G : In (fold_left Rmin l x) (x :: l)) by (destruct A as [A|A]; [left; symmetry; exact A|right; exact A]).
    apply H2 in G. destruct H1 as [<-|H1]; [lra|]. apply C in H1. lra.
  Qed.
  Lemma max_of_eq m l : In m l -> (forall y, In y l -> y <= m) -> max_of l = m.
  Proof.
    intros H1 H2. destruct l as [|x l]; [destruct H1|]. cbn [max_of]. destruct (fold_Rmax_spec l x) as (A & B & C).
    assert (G : In (fold_left Rmax l x) (x :: l)) by (destruct A as [A|A]; [left; symmetry; exact A|right; exact A]).
    apply H2 in G. destruct H1 as [<-|H1]; [lra|]. apply C in H1. lra.
  Qed.

  Lemma is_min_real (m : f32) (l : list f32) : (forall y, In y l -> is_finite y = true) -> @is_min I m l -> min_of (map B2R l) = B2R m.
  Proof.
    intros HF (H1 & H2). apply min_of_eq; [apply in_map; exact H1|]. intros y Hy. apply in_map_iff in Hy as (z & <- & Hz).
    specialize (H2 z Hz). cbn [fleb ieee] in H2. rewrite Bleb_ext in H2 by (apply finite_num; auto).
    rewrite !ext_finite in H2 by auto. destruct (Rle_bool_spec (B2R m) (B2R z)); [assumption|discriminate].
  Qed.
  Lemma is_max_real (m : f32) (l : list f32) : (forall y, In y l -> is_finite y = true) -> @is_max I m l -> max_of (map B2R l) = B2R m.
  Proof.
    intros HF (H1 & H2). apply max_of_eq; [apply in_map; exact H1|]. intros y Hy. apply in_map_iff in Hy as (z & <- & Hz).
    specialize (H2 z Hz). cbn [fleb ieee] in H2. rewrite Bleb_ext in H2 by (apply finite_num; auto).
    rewrite !ext_finite in H2 by auto. destruct (Rle_bool_spec (B2R z) (B2R m)); [assumption|discriminate].
  Qed.

  Lemma prefixes_map {A B} (f : A -> B) l : prefixes (map f l) = map (map f) (prefixes l).
  Proof. unfold prefixes. rewrite map_length, map_map. apply map_ext. intros i. apply firstn_map. Qed.

  (** ** The run *)
  Definition good (t : @ohlc_tick I) : Prop := @valid_tick I t /\ nneg 120 (high t) /\ nneg 120 (low t) /\ nneg 120 (close t).

  Definition okK (k : f32) (pre : list (@ohlc_tick I)) : Prop :=
    bnd 7 k /\ Rabs (B2R k - percent_k sh as' n (map real pre)) <= / 32768.
  Definition okF (f : f32) (pre : list (@ohlc_tick I)) : Prop :=
    bnd 8 f /\ Rabs (B2R f - fast_d sh as' n (map real pre)) <= INR (length pre) * / 4096 + / 32768.

  Definition stoch_F (s : @stoch_state I) (ser : list (@ohlc_tick I)) : Prop :=
    stoch_I O n s ser /\
    ((forall t, In t ser -> good t) -> Forall (clear_span n) (prefixes ser) -> (Z.of_nat (length ser) <= 2 ^ 19)%Z ->
     exists ks fs : list f32, st_fast s = @mv_of I 3 ks /\ st_slow s = @mv_of I 3 fs /\
       Forall2 okK ks (prefixes ser) /\ Forall2 okF fs (prefixes ser) /\
       (forall ser0 t, ser = ser0 ++ [t] -> okK (latest_k s) ser)).

  Lemma fast_err (ks : list f32) ser : Forall2 okK ks (prefixes ser) -> (Z.of_nat (length ser) <= 2 ^ 19)%Z ->
    okF (@mv_GetMean I (@mv_of I 3 ks)) ser.
  Proof.
    intros HF HL. assert (Lk : length ks = length ser).
    { rewrite (Forall2_len _ _ _ HF). unfold prefixes. rewrite map_length, seq_length. reflexivity. }
    assert (Hb : Forall (bnd 7) ks).
    { clear - HF. induction HF as [|k pre ks l Hk HF IH]; constructor; [apply Hk|exact IH]. }
    destruct (mean_err lm as_ 7 ltac:(lia) 3 ks ltac:(lia) Hb ltac:(rewrite Lk; exact HL)) as (F & EM).
    rewrite Lk in EM. change (bpow radix2 7) with 128 in EM. change (last_or_all 3 ks) with (lastn 3 ks) in EM.
    assert (HN : INR (length ser) <= 524288).
    { rewrite INR_IZR_INZ. apply IZR_le. lia. }
    assert (HN0 : 0 <= INR (length ser)) by apply pos_INR.
    split.
    - split; [exact F|]. change (bpow radix2 8) with 256.
      assert (HR : -128 <= mean (reals (lastn 3 ks)) <= 128).
      { apply mean_range; [lra|]. unfold reals. apply Forall_map. apply Forall_forall. intros x Hx. apply lastn_in in Hx.
        rewrite Forall_forall in Hb. apply Hb in Hx. destruct Hx as (_ & Hx). change (bpow radix2 7) with 128 in Hx. apply Rabs_le_inv in Hx. lra. }
      apply Rabs_le_inv in EM. apply Rabs_le. change (@flt I) with f32 in *. lra.
    - assert (HC : Rabs (mean (reals (lastn 3 ks)) - fast_d sh as' n (map real ser)) <= / 32768).
      { unfold fast_d. apply mean_close; [lra|]. unfold reals. rewrite <- lastn_map. apply Forall2_lastn.
        rewrite prefixes_map, map_map. clear - HF. induction HF as [|k pre ks l Hk HF IH]; cbn [map]; constructor; [apply Hk|exact IH]. }
      apply Rabs_le_inv in EM. apply Rabs_le_inv in HC. apply Rabs_le. change (@flt I) with f32 in *. lra.
  Qed.

  Lemma stoch_F_add s ser t : stoch_F s ser ->
    exists s', @stoch_handler I s (window 1 (ser ++ [t])) (add_event 1 ser t) = Done s' /\ stoch_F s' (ser ++ [t]).
  Proof.
    intros (H1 & HX). destruct (stoch_I_add O n Hn s ser t H1) as (s' & E1 & I1). exists s'. split; [exact E1|].
    split; [exact I1|]. intros Hgood Hspan HL. rewrite app_length in HL. cbn [length] in HL.
    rewrite prefixes_snoc in Hspan. apply Forall_app in Hspan as (Hspan & Hlast). apply Forall_inv in Hlast.
    destruct HX as (ks & fs & E2 & E3 & F2 & F3 & _).
    { intros x Hx. apply Hgood. apply in_or_app. left. exact Hx. }
    { exact Hspan. }
    { lia. }
    destruct H1 as (H1 & _). rewrite (stoch_step n s ser t H1) in E1.
    destruct (stoch_New n Hn s ser t H1) as (mn & mx & k & F1' & F2' & Fk & F & Ok). rewrite F in E1.
    match type of E1 with Done ?x = _ => assert (s' = x) as Es by congruence end. clear E1 F.
    assert (Hv : forall x, In x (ser ++ [t]) -> @valid_tick I x) by (intros x Hx; apply (Hgood x Hx)).
    assert (Hnum : forall x, In x (ser ++ [t]) -> num_tick O x).
    { intros x Hx. apply Hv in Hx. apply (valid_iff O) in Hx. unfold valid_val in Hx. split; tauto. }
    destruct (stoch_extrema O n Hn s' (ser ++ [t]) I1 ltac:(destruct ser; discriminate) Hnum) as [Hmin Hmax].
    destruct (price_between O n Hn s' ser t I1 Hv) as (N1 & N2 & N3 & P1 & P2 & P3).
    rewrite Es in Hmin, Hmax, N1, N2, P1, P2, P3. cbn [st_min st_max] in Hmin, Hmax, N1, N2, P1, P2, P3.
    assert (Nlo : nneg 120 (@sm_Get I mn)).
    { destruct Hmin as [Hin _]. apply in_map_iff in Hin as (x & Ex & Hx). apply lastn_in in Hx. rewrite <- Ex. apply (Hgood x Hx). }
    assert (Nhi : nneg 120 (@sx_Get I mx)).
    { destruct Hmax as [Hin _]. apply in_map_iff in Hin as (x & Ex & Hx). apply lastn_in in Hx. rewrite <- Ex. apply (Hgood x Hx). }
    assert (Nc : nneg 120 (@close I t)) by (apply (Hgood t); apply in_or_app; right; left; reflexivity).
    change (ext (@sm_Get I mn) <= ext (@close I t)) in P2. change (ext (@close I t) <= ext (@sx_Get I mx)) in P3.
    rewrite !ext_finite in P2 by (apply Nlo || apply Nc). rewrite !ext_finite in P3 by (apply Nhi || apply Nc).
    assert (Rmin_eq : min_of (map (fun x => B2R (@low I x : f32)) (lastn (Z.to_nat n) (ser ++ [t]))) = B2R (@sm_Get I mn : f32)).
    { rewrite <- (is_min_real _ (map (@low I) (lastn (Z.to_nat n) (ser ++ [t])))); [rewrite map_map; reflexivity| |exact Hmin].
      intros y Hy. apply in_map_iff in Hy as (x & <- & Hx). apply lastn_in in Hx. apply (Hgood x Hx). }
    assert (Rmax_eq : max_of (map (fun x => B2R (@high I x : f32)) (lastn (Z.to_nat n) (ser ++ [t]))) = B2R (@sx_Get I mx : f32)).
    { rewrite <- (is_max_real _ (map (@high I) (lastn (Z.to_nat n) (ser ++ [t])))); [rewrite map_map; reflexivity| |exact Hmax].
      intros y Hy. apply in_map_iff in Hy as (x & <- & Hx). apply lastn_in in Hx. apply (Hgood x Hx). }
    unfold clear_span, span in Hlast. rewrite Rmin_eq, Rmax_eq in Hlast.
    destruct (k_err (@sm_Get I mn) (@sx_Get I mx) (close t) Nlo Nhi Nc (conj P2 P3) Hlast) as (Fin & EK).
    destruct (k_range_ieee lm as_ (@sm_Get I mn) (@sx_Get I mx) (close t) Nlo Nhi Nc (conj P2 P3)) as (_ & Rng).
    rewrite <- Fk in Fin, EK, Rng.
    assert (Epk : percent_k sh as' n (map real (ser ++ [t])) = @k_of E (B2R (@sm_Get I mn : f32)) (B2R (@sx_Get I mx : f32)) (B2R (@close I t : f32))).
    { unfold percent_k. rewrite !lastn_map, !map_map. cbn [real_tick low high].
      rewrite map_app, rev_app_distr. cbn [map rev app]. cbn [real_tick close].
      change (@flt I) with f32 in *. rewrite <- Rmin_eq, <- Rmax_eq. reflexivity. }
    assert (OK : okK k (ser ++ [t])).
    { split; [split; [exact Fin|]|].
      - change (bpow radix2 7) with 128. change (bpow radix2 (-17)) with (/ 131072) in Rng. change (@flt I) with f32 in *. rewrite Rabs_pos_eq; lra.
      - rewrite Epk. exact EK. }
    exists (ks ++ [k]), (fs ++ [@mv_GetMean I (@mv_of I 3 (ks ++ [k]))]).
    rewrite Es. cbn [st_fast st_slow latest_k]. rewrite !(@mv_of_snoc I). rewrite <- E2, <- E3.
    assert (FK : Forall2 okK (ks ++ [k]) (prefixes (ser ++ [t]))).
    { rewrite prefixes_snoc. apply Forall2_app; [exact F2|]. constructor; [exact OK|constructor]. }
    split; [reflexivity|]. split; [reflexivity|]. split; [exact FK|]. split; [|intros; exact OK].
    rewrite prefixes_snoc. apply Forall2_app; [exact F3|]. constructor; [|constructor].
    rewrite E2, <- (@mv_of_snoc I). apply fast_err; [exact FK|]. rewrite app_length. cbn [length]. lia.
  Qed.

  Theorem stoch_run_float p us : (0 < p)%Z -> ordered timestamp_sec us ->
    exists s, foldM (@stoch_Update I p) ([], stoch0 n) us = Done (window 1 (series p us), s) /\ stoch_F s (series p us).
  Proof.
    intros Hp Ho.
    destruct (run_replace (@stoch_handler I) 1 ltac:(lia) p Hp (stoch0 n) stoch_F) with (us := us) as (s & E1 & _ & H); auto.
    - split; [|intros _ _ _; exists [], []; split; [reflexivity|]; split; [reflexivity|]; split; [apply Forall2_nil|]; split; [apply Forall2_nil|]; intros [|? ?] t Et; discriminate].
      split; [apply stoch_ok0; exact Hn|]. split.
      + intros _. cbn [stoch0 st_min st_max map].
        assert (K := @sm_inv_new I n _ (@NewSlidingMin_ok I n Hn) Hn). auto.
      + intros [|? ?] t E1; discriminate.
    - apply stoch_F_add.
    - intros s ser t0 t1 s' ((H & _) & _). apply (stoch_upd n Hn); auto.
    - exists s. auto.
  Qed.

  Lemma slow_err (fs : list f32) ser : Forall2 okF fs (prefixes ser) -> (Z.of_nat (length ser) <= 2 ^ 19)%Z -> ser <> [] ->
    is_finite (@mv_GetMean I (@mv_of I 3 fs) : f32) = true /\
    Rabs (B2R (@mv_GetMean I (@mv_of I 3 fs) : f32) - slow_d sh as' n (map real ser)) <= INR (length ser) * / 1024.
  Proof.
    intros HF HL Hne. assert (Lk : length fs = length ser).
    { rewrite (Forall2_len _ _ _ HF). unfold prefixes. rewrite map_length, seq_length. reflexivity. }
    assert (Hb : Forall (bnd 8) fs).
    { clear - HF. induction HF as [|k pre ks l Hk HF IH]; constructor; [apply Hk|exact IH]. }
    destruct (mean_err lm as_ 8 ltac:(lia) 3 fs ltac:(lia) Hb ltac:(rewrite Lk; exact HL)) as (F & EM).
    split; [exact F|].
    rewrite Lk in EM. change (bpow radix2 8) with 256 in EM. change (last_or_all 3 fs) with (lastn 3 fs) in EM.
    assert (HN1 : 1 <= INR (length ser)).
    { rewrite INR_IZR_INZ. apply IZR_le. destruct ser; [congruence|cbn [length]; lia]. }
    assert (HC : Rabs (mean (reals (lastn 3 fs)) - slow_d sh as' n (map real ser)) <= INR (length ser) * / 4096 + / 32768).
    { unfold slow_d. apply mean_close; [lra|]. unfold reals. rewrite <- lastn_map. apply Forall2_lastn.
      rewrite prefixes_map, map_map.
      assert (HP : Forall (fun pre : list (@ohlc_tick I) => INR (length pre) <= INR (length ser)) (prefixes ser)).
      { unfold prefixes. apply Forall_map. apply Forall_forall. intros i _. apply le_INR. rewrite firstn_length. lia. }
      clear - HF HP. induction HF as [|k pre ks l Hk HF IH]; cbn [map]; constructor.
      - apply Forall_inv in HP. destruct Hk as (_ & Hk). lra.
      - apply IH. apply Forall_inv_tail in HP. exact HP. }
    apply Rabs_le_inv in EM. apply Rabs_le_inv in HC. apply Rabs_le. change (@flt I) with f32 in *. lra.
  Qed.
End StochFloat.
