(** Single precision: evaluations of traders that cope return. *)
From Coq Require Import Reals ZArith List Lra Lia Bool Psatz Classical.
From Flocq Require Import Core BinarySingleNaN.
From Verif.Model Require Import Outcome Machine Types Account SideInput MachineR MachineIEEE TimeUtil Eval Traders.
From Verif.Spec Require Import SeriesSpec OrderSpec AccountSpec AccountIEEESpec RunSpec TraderSpec TimeSpec EvalSpec ProgressSpec ReturnSpec.
From Verif.Proofs Require Import Base FloatLemmas FloatErr OrderLaws AccountAny AccountIEEE RunProofs TraderProofs StopFloat RebalanceFloat RebalanceProofs ProgressProofs TimeProofs EvalProofs SteadyFloat.
Import ListNotations.
Local Open Scope R_scope.

(** ** Doubles: products of positive numbers *)
Definition nonneg64 (x : f64) : Prop :=
  match x with
  | B754_zero _ => True
  | B754_infinity s => s = false
  | B754_finite s _ _ _ => s = false
  | B754_nan => False
  end.
Definition pos64 (x : f64) : Prop := match x with B754_finite false _ _ _ => True | _ => False end.

Lemma nonneg64_le x : nonneg64 x -> Bleb (f64_of_Z 0) x = true.
Proof. destruct x as [s|s| |s m e H]; cbn; intros Hx; try contradiction; subst; reflexivity. Qed.

Lemma nonneg64_mult x y : nonneg64 x -> pos64 y -> nonneg64 (Bmult mode_NE x y).
Proof.
  intros Hx Hy. destruct y as [| | |[|] my ey Hey]; try contradiction.
  destruct x as [s|s| |s mx ex Hex]; try contradiction; [exact I|cbn in *; subst s; reflexivity|].
  cbn in Hx. subst s.
  pose proof (Bmult_correct 53 1024 _ _ mode_NE (B754_finite false mx ex Hex) (B754_finite false my ey Hey)) as H.
  destruct (Rlt_bool _ _).
  - destruct H as (_ & HF & HS). destruct (Bmult mode_NE _ _) as [s|s| |s m e He]; try discriminate; [exact I|].
    exact (HS eq_refl).
  - destruct (Bmult mode_NE _ _) as [s|s| |s m e He]; cbn in H; try discriminate. injection H as ->. reflexivity.
Qed.

Lemma f2d_pos (x : f32) : is_finite x = true -> 0 < B2R x -> pos64 (f32_to_f64 x).
Proof.
  intros F P. destruct x as [s|s| |[|] m e He]; try discriminate; cbn [B2R] in P; try lra.
  { exfalso. pose proof (F2R_lt_0 radix2 (Float radix2 (Z.neg m) e) ltac:(reflexivity)). cbn [cond_Zopp Z.opp] in P. lra. }
  cbn [f32_to_f64 cond_Zopp].
  pose proof (binary_normalize_correct 53 1024 (eq_refl _) (eq_refl _) mode_NE (Zpos m) e false) as H. cbn [round_mode] in H.
  set (v := F2R (Float radix2 (Zpos m) e)) in *.
  assert (V1 : v < bpow radix2 128).
  { pose proof (abs_B2R_lt_emax 24 128 (B754_finite false m e He)) as K. cbn [B2R cond_Zopp] in K.
    apply Rabs_def2 in K. apply K. }
  assert (V2 : bpow radix2 (-149) <= v).
  { pose proof (abs_B2R_ge_emin 24 128 (B754_finite false m e He)) as K. cbn [is_finite_strict B2R cond_Zopp] in K.
    specialize (K eq_refl). rewrite Rabs_pos_eq in K by (left; exact P). exact K. }
  assert (G : bpow radix2 (-149) <= round radix2 (SpecFloat.fexp 53 1024) ZnearestE v <= bpow radix2 128).
  { split.
    - apply round_ge_generic; try exact _; auto. apply generic_format_bpow. cbn. lia.
    - apply round_le_generic; try exact _; [|lra]. apply generic_format_bpow. cbn. lia. }
  pose proof (bpow_gt_0 radix2 (-149)). pose proof (bpow_lt radix2 128 1024 ltac:(lia)).
  rewrite Rlt_bool_true in H by (rewrite Rabs_pos_eq; lra).
  destruct H as (HR & HF & HS). fold v in HR. 
  destruct (binary_normalize _ _ _ _ _ _ _ _) as [s|s| |[|] m' e' He']; try discriminate; cbn [B2R] in HR; try exact I; exfalso.
  - lra.
  - pose proof (F2R_lt_0 radix2 (Float radix2 (Z.neg m') e') ltac:(reflexivity)). cbn [cond_Zopp Z.opp] in HR. lra.
Qed.

(** ** Values and scores *)
Lemma half_bounds z : bpow radix2 (-125) <= z -> z / 2 <= rnd z <= 2 * z.
Proof.
  intros H. pose proof (bpow_gt_0 radix2 (-125)) as P.
  pose proof (rnd_err_le z z ltac:(lra)) as K. apply Rabs_le_inv in K.
  assert (T : bpow radix2 (-150) <= z / 4).
  { apply Rle_trans with (bpow radix2 (-127)); [apply bpow_le; lia|]. replace (-127)%Z with (-125 + -2)%Z by lia. rewrite bpow_plus.
    change (bpow radix2 (-2)) with (/ 4). lra. }
  assert (U : z * u <= z / 4).
  { unfold u. apply Rle_trans with (z * bpow radix2 (-2)); [apply Rmult_le_compat_l; [lra|apply bpow_le; lia]|]. change (bpow radix2 (-2)) with (/ 4). lra. }
  lra.
Qed.

Definition worth (c b q : f32) : f32 := Bplus mode_NE q (Bmult mode_NE c b).

Lemma div_le x y k : 0 < y -> x <= k * y -> x / y <= k.
Proof. intros Hy H. apply Rmult_le_reg_r with y; [exact Hy|]. unfold Rdiv. rewrite Rmult_assoc, Rinv_l by lra. lra. Qed.
Lemma div_ge x y k : 0 < y -> k * y <= x -> k <= x / y.
Proof. intros Hy H. apply Rmult_le_reg_r with y; [exact Hy|]. unfold Rdiv. rewrite Rmult_assoc, Rinv_l by lra. lra. Qed.

Lemma worth_range (c b q : f32) : in_range (bpow radix2 (-19)) (bpow radix2 19) c -> nneg 40 b -> nneg 40 q ->
  bpow radix2 (-30) <= B2R b \/ bpow radix2 (-30) <= B2R q ->
  nneg 60 (worth c b q) /\ bpow radix2 (-49) <= B2R (worth c b q) /\
  bpow radix2 (-49) <= B2R (worth c b q) / B2R c <= bpow radix2 61.
Proof.
  intros [Fc Hc] Hb Hq Own. pose proof (bpow_gt_0 radix2 (-19)) as P19. pose proof (bpow_gt_0 radix2 (-30)) as P30.
  assert (Nc : nneg 19 c) by (split; [exact Fc|lra]).
  destruct (Bmult_nneg 19 40 c b ltac:(lia) Nc Hb) as [Hx Ex]. change (19 + 40)%Z with 59%Z in Hx.
  assert (Hq' : nneg 59 q) by (apply (nneg_weaken 40); [lia|exact Hq]).
  destruct (Bplus_nneg 59 q (Bmult mode_NE c b) ltac:(lia) Hq' Hx) as [Hv Ev]. change (59 + 1)%Z with 60%Z in Hv.
  unfold worth. destruct Hb as [Fb Hb]. destruct Hq as [Fq Hq].
  set (x := B2R (Bmult mode_NE c b)) in *. set (v := B2R (Bplus mode_NE q (Bmult mode_NE c b))) in *.
  assert (X0 : 0 <= x) by apply Hx.
  assert (Vx : x <= v) by (rewrite Ev; apply round_ge_generic; try exact _; [apply generic_format_B2R|lra]).
  assert (Vq : B2R q <= v) by (rewrite Ev; apply round_ge_generic; try exact _; [apply generic_format_B2R|lra]).
  assert (L : bpow radix2 (-49) <= v /\ bpow radix2 (-49) <= v / B2R c).
  { destruct Own as [Own|Own].
    - assert (CB : bpow radix2 (-49) <= B2R c * B2R b).
      { replace (-49)%Z with (-19 + -30)%Z by lia. rewrite bpow_plus. apply Rmult_le_compat; lra. }
      assert (bpow radix2 (-49) <= x) by (rewrite Ex; apply rnd_ge_bpow; [lia|exact CB]).
      split; [lra|]. apply div_ge; [lra|].
      destruct (half_bounds (B2R c * B2R b)) as [HB1 _]; [eapply Rle_trans; [apply bpow_le|exact CB]; lia|]. rewrite <- Ex in HB1.
      apply Rle_trans with ((bpow radix2 (-30) / 2) * B2R c); [|nra].
      apply Rmult_le_compat_r; [lra|]. replace (bpow radix2 (-30) / 2) with (bpow radix2 (-30 + -1)) by (rewrite bpow_plus; change (bpow radix2 (-1)) with (/ 2); lra).
      apply bpow_le. lia.
    - assert (bpow radix2 (-49) <= bpow radix2 (-30)) by (apply bpow_le; lia). split; [lra|]. apply div_ge; [lra|].
      apply Rle_trans with (bpow radix2 (-49) * bpow radix2 19); [apply Rmult_le_compat_l; [apply bpow_ge_0|lra]|].
      rewrite <- bpow_plus. change (-49 + 19)%Z with (-30)%Z. lra. }
  split; [exact Hv|]. split; [apply L|]. split; [apply L|].
  apply div_le; [lra|].
  assert (T : bpow radix2 (-150) <= 1) by (change 1 with (bpow radix2 0); apply bpow_le; lia).
  assert (U : u <= 1) by (unfold u; change 1 with (bpow radix2 0); apply bpow_le; lia).
  assert (T' : bpow radix2 (-150) <= B2R c).
  { eapply Rle_trans; [|apply Hc]. apply bpow_le; lia. }
  pose proof (bpow_gt_0 radix2 (-150)) as TP. assert (UP : 0 < u) by apply bpow_gt_0.
  assert (X2 : x <= 2 * (B2R c * B2R b) + bpow radix2 (-150)).
  { rewrite Ex. assert (CB0 : 0 <= B2R c * B2R b) by (apply Rmult_le_pos; lra).
    pose proof (rnd_err_le (B2R c * B2R b) (B2R c * B2R b) ltac:(lra)) as K. apply Rabs_le_inv in K.
    assert (KU : B2R c * B2R b * u <= B2R c * B2R b * 1) by (apply Rmult_le_compat_l; lra). lra. }
  assert (V2 : v <= 2 * (B2R q + x) + bpow radix2 (-150)).
  { rewrite Ev. pose proof (rnd_err_le (B2R q + x) (B2R q + x) ltac:(lra)) as K. apply Rabs_le_inv in K. fold x in K. fold x.
    assert (KU : (B2R q + x) * u <= (B2R q + x) * 1) by (apply Rmult_le_compat_l; lra). lra. }
  assert (Q : B2R q <= bpow radix2 59 * B2R c).
  { apply Rle_trans with (bpow radix2 59 * bpow radix2 (-19)); [rewrite <- bpow_plus; apply Hq|]. apply Rmult_le_compat_l; [apply bpow_ge_0|lra]. }
  assert (CB : B2R c * B2R b <= B2R c * bpow radix2 40) by (apply Rmult_le_compat_l; lra).
  assert (S1 : v <= (2 * bpow radix2 59 + 4 * bpow radix2 40 + 3) * B2R c).
  { rewrite !Rmult_plus_distr_r. lra. }
  eapply Rle_trans; [exact S1|]. apply Rmult_le_compat_r; [lra|].
  assert (8 <= bpow radix2 40) by (change 8 with (bpow radix2 3); apply bpow_le; lia).
  assert (16 * bpow radix2 40 <= bpow radix2 59) by (change 16 with (bpow radix2 4); rewrite <- bpow_plus; apply bpow_le; lia).
  replace 61%Z with (59 + 2)%Z by lia. rewrite bpow_plus. change (bpow radix2 2) with 4. lra.
Qed.

Lemma Bdiv_le k (x y : f32) : (-149 <= k < 128)%Z -> is_finite x = true -> is_finite y = true -> 0 <= B2R x -> 0 < B2R y ->
  B2R x / B2R y <= bpow radix2 k -> is_finite (Bdiv mode_NE x y) = true /\ B2R (Bdiv mode_NE x y) = rnd (B2R x / B2R y).
Proof.
  intros Hk Fx Fy Hx Hy H. pose proof (Bdiv_correct 24 128 _ _ mode_NE x y ltac:(lra)) as K. cbn [round_mode] in K.
  assert (0 <= B2R x / B2R y) by (apply Rmult_le_pos; [exact Hx|left; apply Rinv_0_lt_compat; exact Hy]).
  rewrite Rlt_bool_true in K.
  - destruct K as (K1 & K2 & _). rewrite Fx in K2. auto.
  - rewrite Rabs_pos_eq by (apply rnd_nonneg; assumption). apply Rle_lt_trans with (bpow radix2 k); [apply rnd_le_bpow; [lia|exact H]|]. apply bpow_lt. lia.
Qed.

Lemma score_range (ec eb eq sc sb sq : f32) :
  in_range (bpow radix2 (-19)) (bpow radix2 19) ec -> in_range (bpow radix2 (-19)) (bpow radix2 19) sc ->
  nneg 40 eb -> nneg 40 eq -> nneg 40 sb -> nneg 40 sq ->
  bpow radix2 (-30) <= B2R eb \/ bpow radix2 (-30) <= B2R eq -> bpow radix2 (-30) <= B2R sb \/ bpow radix2 (-30) <= B2R sq ->
  let s := Bdiv mode_NE (Bdiv mode_NE (worth ec eb eq) (worth sc sb sq)) (Bdiv mode_NE ec sc) in
  is_finite s = true /\ 0 < B2R s.
Proof.
  intros Hec Hsc Heb Heq Hsb Hsq Oe Os.
  destruct (worth_range ec eb eq Hec Heb Heq Oe) as (E1 & E2 & E3). destruct (worth_range sc sb sq Hsc Hsb Hsq Os) as (S1 & S2 & S3).
  destruct Hec as [Fec Hec]. destruct Hsc as [Fsc Hsc]. pose proof (bpow_gt_0 radix2 (-19)) as P19. pose proof (bpow_gt_0 radix2 (-49)) as P49.
  destruct (Bdiv_nneg 49 60 (worth ec eb eq) (worth sc sb sq) ltac:(lia) E1 (proj1 S1) S2) as [G1 G2].
  destruct (Bdiv_nneg 19 19 ec sc ltac:(lia) ltac:(split; [exact Fec|lra]) Fsc ltac:(exact (proj1 Hsc))) as [B1 B2].
  set (ev := B2R (worth ec eb eq)) in *. set (sv := B2R (worth sc sb sq)) in *.
  set (g := Bdiv mode_NE (worth ec eb eq) (worth sc sb sq)) in *. set (bg := Bdiv mode_NE ec sc) in *.
  destruct E1 as [_ E1]. destruct S1 as [_ S1]. fold ev in E1. fold sv in S1.
  assert (R1 : bpow radix2 (-109) <= ev / sv).
  { apply div_ge; [lra|]. replace (-49)%Z with (-109 + 60)%Z in E2 by lia. rewrite bpow_plus in E2. pose proof (bpow_gt_0 radix2 (-109)). nra. }
  assert (R2 : bpow radix2 (-38) <= B2R ec / B2R sc).
  { apply div_ge; [lra|]. apply Rle_trans with (bpow radix2 (-38) * bpow radix2 19); [apply Rmult_le_compat_l; [apply bpow_ge_0|lra]|].
    rewrite <- bpow_plus. apply Hec. }
  assert (G3 : bpow radix2 (-109) <= B2R g) by (rewrite G2; apply rnd_ge_bpow; [lia|exact R1]).
  assert (B3 : bpow radix2 (-38) <= B2R bg) by (rewrite B2; apply rnd_ge_bpow; [lia|exact R2]).
  pose proof (bpow_gt_0 radix2 (-109)) as P109. pose proof (bpow_gt_0 radix2 (-38)) as P38.
  destruct (half_bounds (ev / sv)) as [_ H1]; [eapply Rle_trans; [apply bpow_le|exact R1]; lia|]. rewrite <- G2 in H1.
  destruct (half_bounds (B2R ec / B2R sc)) as [H2 _]; [eapply Rle_trans; [apply bpow_le|exact R2]; lia|]. rewrite <- B2 in H2.
  assert (Q : B2R g / B2R bg <= bpow radix2 112).
  { apply div_le; [lra|]. eapply Rle_trans; [exact H1|].
    apply Rle_trans with (bpow radix2 112 * ((B2R ec / B2R sc) / 2)); [|apply Rmult_le_compat_l; [apply bpow_ge_0|exact H2]].
    assert (Ev : ev / sv = (ev / B2R ec) / (sv / B2R sc) * (B2R ec / B2R sc)) by (field; lra).
    rewrite Ev. assert (W : (ev / B2R ec) / (sv / B2R sc) <= bpow radix2 110).
    { apply div_le; [lra|]. apply Rle_trans with (bpow radix2 110 * bpow radix2 (-49)); [rewrite <- bpow_plus; apply E3|].
      apply Rmult_le_compat_l; [apply bpow_ge_0|apply S3]. }
    replace 112%Z with (110 + 2)%Z by lia. rewrite bpow_plus. change (bpow radix2 2) with 4.
    set (z := B2R ec / B2R sc) in *. set (y := ev / B2R ec / (sv / B2R sc)) in *. nra. }
  destruct (Bdiv_le 112 g bg ltac:(lia) (proj1 G1) (proj1 B1) ltac:(lra) ltac:(lra) Q) as [F1 F2].
  split; [exact F1|]. rewrite F2. apply Rlt_le_trans with (bpow radix2 (-149)); [apply bpow_gt_0|]. apply rnd_ge_bpow; [lia|].
  apply div_ge; [lra|]. destruct B1 as [_ B1]. change (19 + 19)%Z with 38%Z in B1.
  apply Rle_trans with (bpow radix2 (-149) * bpow radix2 38); [apply Rmult_le_compat_l; [apply bpow_ge_0|lra]|].
  rewrite <- bpow_plus. eapply Rle_trans; [apply bpow_le|exact G3]. lia.
Qed.

(** ** Sub-histories *)
Section Sub.
  Context {M : machine}.
  Lemma strictly_alt (x : ohlc_tick) l : strictly_ordered (x :: l) <->
    (0 < timestamp_sec x)%Z /\ (forall y, In y l -> (timestamp_sec x < timestamp_sec y)%Z) /\ strictly_ordered l.
  Proof.
    split.
    - intros [H1 H2]. split; [apply H1; left; reflexivity|]. split; [|split].
      + intros y Hy. apply In_nth_error in Hy as [i Hi]. apply (H2 0%nat (S i)); [reflexivity|exact Hi|lia].
      + intros t Ht. apply H1. right. exact Ht.
      + intros i j t t' Hi Hj L. apply (H2 (S i) (S j)); auto. lia.
    - intros (H1 & H2 & [H3 H4]). split.
      + intros t [<-|Ht]; auto.
      + intros [|i] [|j] t t' Hi Hj L; try lia.
        * injection Hi as <-. apply H2. eapply nth_error_In. exact Hj.
        * apply (H4 i j); auto. lia.
  Qed.
  Lemma strictly_filter f (l : list ohlc_tick) : strictly_ordered l -> strictly_ordered (filter f l).
  Proof.
    induction l as [|x l IH]; [auto|]. intros H. apply strictly_alt in H as (H1 & H2 & H3). cbn [filter]. destruct (f x); [|auto].
    apply strictly_alt. split; [exact H1|]. split; [|auto]. intros y Hy. apply filter_In in Hy as [Hy _]. auto.
  Qed.
  Lemma strictly_time (l : list ohlc_tick) : strictly_ordered l -> time_ordered l.
  Proof. intros [_ H] i j t t' H1 H2 L. apply Z.lt_le_incl. eapply H; eauto. Qed.
  Lemma Forall_filter (P : ohlc_tick -> Prop) f l : Forall P l -> Forall P (filter f l).
  Proof. intros H. rewrite Forall_forall in *. intros x Hx. apply filter_In in Hx as [Hx _]. auto. Qed.
End Sub.

Section IEEE.
  Context (lm : libm) (as_ : bool).
  Local Notation I := (ieee lm as_).

  (** The result of a run of a trader that copes. *)
  Definition fair_result (res : @execution_result I) : Prop :=
    exists ec eb eq sc sb sq : f32,
      in_range (bpow radix2 (-19)) (bpow radix2 19) ec /\ in_range (bpow radix2 (-19)) (bpow radix2 19) sc /\
      nneg 40 eb /\ nneg 40 eq /\ nneg 40 sb /\ nneg 40 sq /\
      (bpow radix2 (-30) <= B2R eb \/ bpow radix2 (-30) <= B2R eq) /\ (bpow radix2 (-30) <= B2R sb \/ bpow radix2 (-30) <= B2R sq) /\
      r_end_price res = ec /\ r_start_price res = sc /\ r_end_value res = worth ec eb eq /\ r_start_value res = worth sc sb sq.

  Lemma last_row_reached (cfg : @account_config I) hist te ticks t rows : story cfg hist te (ticks ++ [t]) rows ->
    reached cfg hist te (ticks ++ [t]) (final_account cfg rows).
  Proof.
    intros S0. destruct (story_unsnoc cfg hist te ticks t rows S0) as (rows' & r & -> & Et & S1 & [Ra Ro Rt _ _]).
    exists ticks, t, [], rows', (w_attempts r), []. split; [reflexivity|]. split; [exact S1|].
    rewrite final_account_snoc. split; [|split].
    - rewrite app_nil_r. unfold pending. symmetry. exact Ro.
    - rewrite Et in Rt. unfold final_account. rewrite <- Ra. exact Rt.
    - unfold final_account. rewrite <- Ra. rewrite <- att_account_last. reflexivity.
  Qed.

  Theorem run_fair (cfg : @account_config I) hist side te lg hl fast ticks l :
    open_for_business cfg -> copes_float te -> side_matches hist side -> strictly_ordered ticks -> Forall quoted ticks ->
    ticks <> [] -> (forall a, reached cfg hist te ticks a -> not_exceeded a) ->
    exists res l', ExecuteTrader cfg side fast te lg hl ticks l = Done (res, l') /\ fair_result res.
  Proof.
    intros Hb Hte Hs Ho Ht Hne HX.
    destruct (copes_float_returns lm as_ cfg hist side te lg hl fast ticks l Hb Hte Hs Ho Ht HX) as (res & l' & HR).
    exists res, l'. split; [exact HR|].
    destruct ticks as [|first rest]; [contradiction|].
    destruct (run_story_volatility cfg hist side fast te lg hl Hs (first :: rest) first l res l' (or_intror (strictly_time _ Ho)) eq_refl HR) as (rows & S0 & R0 & _).
    destruct Hb as [Hc Hset Hbal Hbu Hqu Own].
    assert (HA : thriving lm as_ (final_account cfg rows)).
    { refine (proj1 (story_good cfg hist te (thriving lm as_) not_exceeded ok_order quoted (first :: rest) _ _ _ Ho Ht HX (first :: rest) [] rows _ S0)).
      - intros o t a A X W T. apply exec_thriving; auto. apply T.
      - repeat split; auto; apply Hset || apply Hbal.
      - intros vs Hi Hv. apply Hte; [exact Hi|]. eapply Forall_impl; [|exact Hv]. intros v. apply shown_portfolio.
      - rewrite app_nil_r. reflexivity. }
    assert (XF : not_exceeded (final_account cfg rows)).
    { apply HX. assert (first :: rest <> []) by discriminate.
      rewrite (app_removelast_last first H) in S0 |- *. apply last_row_reached. exact S0. }
    assert (XO : not_exceeded (opening_account cfg)).
    { apply HX. exists [], first, rest, [], [], []. split; [reflexivity|]. split; [split; [reflexivity|intros [|? ?] r0 ? K; discriminate]|].
      split; [reflexivity|]. split; [exact Logic.I|]. reflexivity. }
    destruct HA as (_ & FB & _ & _ & FOwn).
    destruct (bounded_of _ FB XF) as (F1 & F2 & _). destruct (bounded_of _ Hbal XO) as (O1 & O2 & _).
    destruct R0 as (_ & _ & _ & _ & Q5 & Q6 & Q7 & Q8 & _ & _).
    assert (QL : quoted (List.last (first :: rest) first)).
    { rewrite Forall_forall in Ht. apply Ht. clear. generalize first at 1 3. induction rest as [|y rest IH]; intros x; [left; reflexivity|right; apply (IH y)]. }
    apply Forall_cons_iff in Ht as [[_ QF] _]. destruct QL as [_ QL].
    exists (close (List.last (first :: rest) first)), (base_balance (final_account cfg rows)), (quote_balance (final_account cfg rows)),
      (close first), (start_base_balance cfg), (start_quote_balance cfg).
    repeat (split; [first [exact QL|exact QF|exact F1|exact F2|exact O1|exact O2|exact FOwn|exact Own|exact Q6|exact Q5|exact Q8]|]). exact Q7.
  Qed.

  Lemma pos_ltb (x : f32) : is_finite x = true -> 0 < B2R x -> Bltb (f32_of_Z 0) x = true.
  Proof. intros F P. exact (pos_num lm as_ x F P). Qed.

  Lemma fair_checks (res : @execution_result I) : fair_result res ->
    @fltb I (fofZ 0) (r_start_value res) = true /\ @fltb I (fofZ 0) (r_start_price res) && @fltb I (fofZ 0) (r_end_price res) = true /\
    let s := @fdiv I (@fdiv I (r_end_value res) (r_start_value res)) (@fdiv I (r_end_price res) (r_start_price res)) in
    is_finite (s : f32) = true /\ 0 < B2R (s : f32).
  Proof.
    intros (ec & eb & eq & sc & sb & sq & H1 & H2 & H3 & H4 & H5 & H6 & H7 & H8 & E1 & E2 & E3 & E4).
    rewrite E1, E2, E3, E4. cbn [fltb fofZ fdiv ieee]. change (@flt I) with f32 in *.
    destruct (worth_range sc sb sq H2 H5 H6 H8) as (W1 & W2 & _). pose proof (bpow_gt_0 radix2 (-49)) as P49. pose proof (bpow_gt_0 radix2 (-19)) as P19.
    split; [apply pos_ltb; [apply W1|lra]|].
    split; [|apply (score_range ec eb eq sc sb sq); assumption].
    destruct H1 as [F1 H1], H2 as [F2 H2]. rewrite !pos_ltb by (auto; lra). reflexivity.
  Qed.

  Definition fair_period (p : @period I) : Prop :=
    let s := @fdiv I (p_final_gain p) (p_base_final_gain p) in is_finite (s : f32) = true /\ 0 < B2R (s : f32).

  Lemma product_nonneg (ps : list (@period I)) : forall m : f64, nonneg64 m -> Forall fair_period ps ->
    nonneg64 (fold_left (fun mul e => @dmul I mul (@f2d I (@fdiv I (p_final_gain e) (p_base_final_gain e)))) ps m).
  Proof.
    induction ps as [|p ps IH]; intros m Hm H; [exact Hm|]. apply Forall_cons_iff in H as [[F P] H]. cbn [fold_left]. apply IH; [|exact H].
    cbn [dmul f2d ieee]. apply nonneg64_mult; [exact Hm|]. apply f2d_pos; assumption.
  Qed.

  Lemma summary_returns (cfg : @account_config I) ec te (ps : list (@period I)) : Forall fair_period ps ->
    exists r, eval_summary cfg ec te ps = Done r /\ er_period r = ps /\
      (er_score r = f32_of_Z 0 \/
       exists x n, Bleb (f64_of_Z 0) x = true /\ (1 <= n)%Z /\ er_score r = f64_to_f32 (libm_pow lm x (Bdiv mode_NE (f64_of_Z 1) (f64_of_Z n)))).
  Proof.
    intros H. unfold eval_summary, GetGeometricAverage. destruct ps as [|p ps]; cbn [bind].
    - eexists. split; [reflexivity|]. cbn. auto.
    - set (m := fold_left _ (p :: ps) _).
      assert (N : nonneg64 m).
      { apply (product_nonneg (p :: ps)); [|exact H]. vm_compute. reflexivity. }
      assert (L : @dleb I (dofZ 0) m = true) by (apply nonneg64_le; exact N).
      rewrite L, assert_true. cbn [bind]. eexists. split; [reflexivity|]. cbn [er_period er_score]. split; [reflexivity|].
      right. exists m, (Z.of_nat (length (p :: ps))). split; [exact L|]. split; [cbn [length]; lia|reflexivity].
  Qed.
End IEEE.

Section Eval.
  Context (lm : libm) (as_ : bool).
  Local Notation I := (ieee lm as_).
  Context (cfg : @account_config I) (ec : evaluation_config) (hist : option (list (@side_record I))) (side : option (@side_input I))
    (te : @trader_emitter I) (lg : @logger I) (hl : bool) (history : list (@ohlc_tick I)).
  Context (Hb : open_for_business cfg) (Hte : copes_float te) (Hs : side_matches hist side)
    (Ho : strictly_ordered history) (Hq : Forall quoted history)
    (HX : forall ws we a, reached cfg hist te (ticks_in history ws we) a -> not_exceeded a).

  Lemma window_returns ps l ws we : Forall (fair_period lm as_) ps ->
    exists ps' l', evaluate_window cfg ec side te lg hl history (ps, l) (ws, we) = Done (ps', l') /\ Forall (fair_period lm as_) ps'.
  Proof.
    intros Hps. unfold evaluate_window. destruct (ticks_in history ws we) as [|t ts] eqn:E; [eauto|].
    destruct (run_fair lm as_ cfg hist side te lg hl (fast_eval ec) (ticks_in history ws we) l Hb Hte Hs) as (res & l' & R & F).
    - apply strictly_filter. exact Ho.
    - apply Forall_filter. exact Hq.
    - rewrite E. discriminate.
    - apply HX.
    - rewrite E in R. cbn [snd fst]. rewrite R. cbn [bind]. destruct (fair_checks lm as_ res F) as (C1 & C2 & C3).
      rewrite C1, C2, !assert_true. cbn [bind]. eexists _, _. split; [reflexivity|]. apply Forall_app. split; [exact Hps|]. constructor; [exact C3|constructor].
  Qed.

  Lemma windows_return ws : forall ps l, Forall (fair_period lm as_) ps ->
    exists ps' l', foldM (evaluate_window cfg ec side te lg hl history) (ps, l) ws = Done (ps', l') /\ Forall (fair_period lm as_) ps'.
  Proof.
    induction ws as [|[a b] ws IH]; intros ps l H; [exists ps, l; split; [reflexivity|exact H]|]. cbn [foldM].
    destruct (window_returns ps l a b H) as (ps1 & l1 & E & H1). rewrite E. cbn [bind]. apply IH. exact H1.
  Qed.

  (** The score is a float: no logarithm of it is taken, it can be compared. *)
  Definition scored (r : @evaluation_result I) : Prop :=
    er_score r = f32_of_Z 0 \/
    exists x n, Bleb (f64_of_Z 0) x = true /\ (1 <= n)%Z /\ er_score r = f64_to_f32 (libm_pow lm x (Bdiv mode_NE (f64_of_Z 1) (f64_of_Z n))).

  Lemma loop_returns fuel l : (0 < ec_start_timestamp_sec ec)%Z -> covers ec history ->
    (Z.max 0 (ec_end_timestamp_sec ec - ec_start_timestamp_sec ec) < Z.of_nat fuel)%Z ->
    exists ps l', eval_loop cfg ec history side te lg hl fuel (0%Z, [], l) = Done (ps, l') /\ Forall (fair_period lm as_) ps.
  Proof.
    intros H0 He Hf.
    assert (Ho' : ordered timestamp_sec history) by (exact (strictly_time _ Ho)).
    destruct He as [Hp|((Hp & Hse) & Hne)].
    - destruct (window_count ec Hp) as (K & HK & HKs).
      rewrite (eval_loop_windows cfg ec history side te lg hl Ho' Hp K fuel 0 [] l (or_introl H0) HKs) by lia.
      apply windows_return. constructor.
    - destruct fuel as [|fuel]; [lia|].
      assert (W : eval_window ec 0 = (ec_start_timestamp_sec ec, ec_end_timestamp_sec ec)).
      { unfold eval_window. rewrite Hp. change (0 >? 0)%Z with false. cbv iota zeta. f_equal.
        destruct (to_civil (ec_start_timestamp_sec ec)) as (y & m & d & s & H & _). rewrite (add_months _ 0 y m d s H), Z.add_0_r.
        symmetry. apply at_civil_first. exact H. }
      pose proof (step_window cfg ec history side te lg hl Ho' 0 [] l _ _ W (Z.le_refl _) ltac:(lia)) as S.
      rewrite (in_interval_ticks history _ _ (or_introl H0)) in S by lia.
      cbn [eval_loop]. rewrite S, Hp. clear S. change (0 =? 0)%Z with true. cbv iota.
      destruct (window_returns [] l (ec_start_timestamp_sec ec) (ec_end_timestamp_sec ec) ltac:(constructor)) as (ps & l' & E & F).
      unfold evaluate_window in E. destruct (ticks_in history (ec_start_timestamp_sec ec) (ec_end_timestamp_sec ec)) as [|t ts]; [congruence|].
      cbn [fst snd] in E.
      apply bind_done in E as ([res l1] & E1 & E). apply bind_done in E as (u1 & E2 & E). apply bind_done in E as (u2 & E3 & E). 
      rewrite E1. cbn [bind]. rewrite E2, E3. cbn [bind]. cbv zeta.
      match type of E with Done ?x = Done ?y => assert (EE : x = y) by congruence end.
      eexists _, _. split; [reflexivity|]. rewrite <- EE in *. injection EE as EE1 EE2. rewrite <- EE1 in F. exact F.
  Qed.

  Theorem evaluation_returns fuel l : (0 < ec_start_timestamp_sec ec)%Z -> covers ec history ->
    (Z.max 0 (ec_end_timestamp_sec ec - ec_start_timestamp_sec ec) < Z.of_nat fuel)%Z ->
    exists r l', EvaluateTrader cfg ec history side te lg hl fuel l = Done (r, l') /\ scored r.
  Proof.
    intros H0 He Hf. destruct (loop_returns fuel l H0 He Hf) as (ps & l' & E & F).
    destruct (summary_returns lm as_ cfg ec te ps F) as (r & E2 & _ & Sc).
    exists r, l'. unfold EvaluateTrader. rewrite E. cbn [bind]. rewrite E2. split; [reflexivity|exact Sc].
  Qed.
End Eval.

(** ** The flags and the scores *)
Lemma narrow_finite s m e H z : f64_to_f32 (B754_finite s m e H) = z -> is_nan z = false.
Proof.
  intros <-. cbn [f64_to_f32]. pose proof (binary_normalize_correct 24 128 (eq_refl _) (eq_refl _) mode_NE (cond_Zopp s (Zpos m)) e s) as K. cbv zeta in K.
  match type of K with if ?b then _ else _ => destruct b end.
  - destruct K as (_ & F & _). destruct (binary_normalize _ _ _ _ _ _ _ _); try reflexivity; discriminate.
  - destruct (binary_normalize _ _ _ _ _ _ _ _) as [| | |]; try reflexivity. discriminate.
Qed.

Lemma narrow_number (x : f64) : is_nan x = false -> Beqb (f64_to_f32 x) (f64_to_f32 x) = true.
Proof.
  intros H. assert (N : is_nan (f64_to_f32 x) = false).
  { destruct x as [s|s| |s m e Hx]; try reflexivity; try discriminate. eapply narrow_finite. reflexivity. }
  rewrite Beqb_refl, N. reflexivity.
Qed.

Lemma narrow_range lo hi (x : f64) : generic_format radix2 (SpecFloat.fexp 24 128) lo -> generic_format radix2 (SpecFloat.fexp 24 128) hi ->
  0 <= lo -> hi < bpow radix2 128 -> flag_between lo hi x -> in_range lo hi (f64_to_f32 x).
Proof.
  intros Glo Ghi Hlo Hhi [F H]. destruct x as [s|s| |s m e Hx]; try discriminate; [split; [reflexivity|exact H]|].
  cbn [f64_to_f32]. pose proof (binary_normalize_correct 24 128 (eq_refl _) (eq_refl _) mode_NE (cond_Zopp s (Zpos m)) e s) as K. cbn [round_mode] in K.
  cbn [B2R] in H. set (v := F2R (Float radix2 (cond_Zopp s (Zpos m)) e)) in *.
  assert (G : lo <= round radix2 (SpecFloat.fexp 24 128) ZnearestE v <= hi).
  { split; [apply round_ge_generic|apply round_le_generic]; try exact _; auto; apply H. }
  rewrite Rlt_bool_true in K by (rewrite Rabs_pos_eq; lra).
  destruct K as (V & Fin & _). split; [exact Fin|]. rewrite <- V in G. exact G.
Qed.
