(** How far float rounding takes the stochastic oscillator from the exact one. *)
From Coq Require Import Reals ZArith Bool List Lia Lra.
From Flocq Require Import Core BinarySingleNaN.
From Verif.Model Require Import Outcome Machine Types Indicators MachineR MachineIEEE.
From Verif.Spec Require Import SeriesSpec IndicatorSpec VolSpec StochSpec.
From Verif.Proofs Require Import Base FloatLemmas FloatErr SeriesProofs LastNProofs OrderLaws SeriesValid HelperProofs IndicatorProofs StochProofs StochFloat.
From Verif.Properties Require Import IndicatorProps.
Import ListNotations.
Local Open Scope R_scope.

Section Stoch.
  Context (lm : libm) (as_ : bool).
  Local Notation I := (ieee lm as_).

  (** ** C111 %K is within 2^-15, the fast %D within N * 2^-11 and the slow %D within N * 2^-10 of
      the exact ones after N periods, unless some span of prices is near the threshold 10^-6. *)
  Theorem C111_stochastic sh as' n p (us : list (@ohlc_tick I)) :
    (0 < n)%Z -> (0 < p)%Z -> us <> [] -> ordered timestamp_sec us ->
    (forall u, In u us -> @valid_tick I u /\ is_finite (high u : f32) = true /\ B2R (high u : f32) <= bpow radix2 120) ->
    Forall (clear_span n) (prefixes (series p us)) ->
    (Z.of_nat (length (series p us)) <= 2 ^ 19)%Z ->
    let N := INR (length (series p us)) in
    let exact_series := map (real_tick lm as_ sh as') (series p us) in
    exists s0 s, @NewStoch I n p = Done s0 /\ foldM (@stoch_Update I p) s0 us = Done s /\
      is_finite (@stoch_GetK I s : f32) = true /\
      Rabs (B2R (@stoch_GetK I s : f32) - percent_k sh as' n exact_series) <= / 2 ^ 15 /\
      is_finite (@stoch_GetFastD I s : f32) = true /\
      Rabs (B2R (@stoch_GetFastD I s : f32) - fast_d sh as' n exact_series) <= N * / 2 ^ 11 /\
      is_finite (@stoch_GetSlowD I s : f32) = true /\
      Rabs (B2R (@stoch_GetSlowD I s : f32) - slow_d sh as' n exact_series) <= N * / 2 ^ 10.
  Proof.
    intros Hn Hp Hne Ho Hv Hsp HL N exact_series. set (O := ieee_order lm as_).
    destruct (stoch_run_float lm as_ sh as' n Hn p us Hp Ho) as (s & E1 & _ & X).
    exists ([], @stoch0 I n), (window 1 (series p us), s). split; [apply NewStoch_ok; assumption|]. split; [exact E1|].
    unfold stoch_GetK, stoch_GetFastD, stoch_GetSlowD. cbn [snd].
    pose proof (@series_valid I O p Hp us Ho (fun u Hu => proj1 (Hv u Hu))) as Hsv.
    assert (Hs : exists ser0 t, series p us = ser0 ++ [t]).
    { destruct (list_snoc us) as [->|(us0 & u0 & ->)]; [congruence|].
      destruct (series_last p Hp us0 u0 Ho) as (older & -> & _). eauto. }
    assert (Hhigh : forall x, In x (series p us) -> nneg 120 (high x)).
    { intros x Hx. apply in_map_iff in Hx as (b & <- & _). apply (period_high lm as_ (nneg 120)).
      - split; [reflexivity|]. cbn. lra.
      - intros u Hu. destruct (Hv u Hu) as (V & F & B). apply (valid_iff O) in V. unfold valid_val in V.
        destruct V as (A1 & A2 & A3 & A4 & A5 & B1 & B2 & B3 & B4 & B5 & B6). cbn in A4, B1, B2, B3, B4, B5.
        rewrite (ext_finite (high u) F) in *.
        split; [split; [exact F|lra]|]. apply nneg_between; [lia|exact A4|lra]. }
    assert (Hg : forall t, In t (series p us) -> good lm as_ t).
    { intros t Ht. pose proof (Hhigh t Ht) as NH. pose proof (Hsv t Ht) as V. split; [exact V|]. split; [exact NH|].
      apply (valid_iff O) in V. unfold valid_val in V.
      destruct V as (A1 & A2 & A3 & A4 & A5 & B1 & B2 & B3 & B4 & B5 & B6).
      unfold O in A1, A2, A3, A4, A5, B1, B2, B3, B4, B5, B6. cbn in A1, A2, A3, A4, B1, B2, B3, B4, B5.
      rewrite (ext_finite (high t)) in * by apply NH. destruct NH as (_ & NH).
      split; apply nneg_between; try lia; try assumption; lra. }
    destruct (X Hg Hsp HL) as (ks & fs & X1 & X2 & X3 & X4 & X5).
    destruct Hs as (ser0 & t & Es). destruct (X5 ser0 t Es) as ((FK & _) & EK).
    destruct (fast_err lm as_ sh as' n ks _ X3 HL) as ((FF & _) & EF).
    destruct (slow_err lm as_ sh as' n fs _ X4 HL ltac:(rewrite Es; destruct ser0; discriminate)) as (FS & ES).
    assert (HN1 : 1 <= N).
    { unfold N. rewrite INR_IZR_INZ. apply IZR_le. rewrite Es, app_length. cbn [length]. lia. }
    rewrite X1, X2. fold exact_series in EK, EF, ES. fold N in EF, ES.
    split; [exact FK|]. split; [replace (/ 2 ^ 15) with (/ 32768) by (f_equal; lra); exact EK|].
    split; [exact FF|]. split; [eapply Rle_trans; [exact EF|]; replace (/ 2 ^ 11) with (/ 2048) by (f_equal; lra); lra|].
    split; [exact FS|]. replace (/ 2 ^ 10) with (/ 1024) by (f_equal; lra). exact ES.
  Qed.
End Stoch.

(** ** A case: four periods (one of them a filler), oscillator over three periods. *)
Section Example.
  Context (lm : libm) (as_ : bool) (sh : R -> String.string) (as' : bool).
  Local Notation I := (ieee lm as_).

  Lemma some_ticks : series 60 (some_updates lm as_) =
    [@OhlcTick I 0 (zf 10) (zf 12) (zf 10) (zf 12) (@fadd I (zf 1) (zf 1)); @OhlcTick I 60 (zf 9) (zf 9) (zf 9) (zf 9) (zf 1);
     @OhlcTick I 120 (zf 9) (zf 9) (zf 9) (zf 9) (zf 0); @OhlcTick I 180 (zf 11) (zf 11) (zf 11) (zf 11) (zf 1)].
  Proof.
    unfold series. assert (G : grid 60 (some_updates lm as_) = [0; 60; 120; 180]%Z) by reflexivity.
    rewrite G. cbn [map]. repeat f_equal.
  Qed.

  Lemma zf_real z : (0 <= z <= 100)%Z -> B2R (zf z) = IZR z.
  Proof. intros Hz. unfold zf. apply (ofZ_finite z). lia. Qed.

  (** Its exact %K is 100, its exact fast %D is 100/3. *)
  Lemma C111_ex :
    let exact_series := map (real_tick lm as_ sh as') (series 60 (some_updates lm as_)) in
    percent_k sh as' 3 exact_series = 100 /\ fast_d sh as' 3 exact_series = 100 / 3 /\
    exists s0 s, @NewStoch I 3 60 = Done s0 /\ foldM (@stoch_Update I 60) s0 (some_updates lm as_) = Done s /\
      Rabs (B2R (@stoch_GetK I s : f32) - 100) <= / 2 ^ 15 /\ Rabs (B2R (@stoch_GetFastD I s : f32) - 100 / 3) <= 4 * / 2 ^ 11.
  Proof.
    intros exact_series.
    assert (K : forall a b c, a <= b <= c -> / 1000000 <= c - a -> @k_of (exact sh as') a c b = 100 * (b - a) / (c - a)).
    { intros a b c H1 H2. unfold k_of, flit. cbn [exact fltb fsub fmul fdiv fofZ]. rewrite Rlt_bool_false by lra. reflexivity. }
    assert (E1 : percent_k sh as' 3 exact_series = 100).
    { unfold exact_series. rewrite some_ticks. unfold percent_k, lastn. change (Z.to_nat 3) with 3%nat. cbn [map length Nat.sub Init.Nat.sub skipn rev app real_tick high low close].
      rewrite !zf_real by lia. unfold min_of, max_of. cbn [fold_left].
      rewrite (Rmin_left 9 9), (Rmin_left 9 11), (Rmax_left 9 9), (Rmax_right 9 11) by lra. rewrite K by lra. lra. }
    assert (E2 : fast_d sh as' 3 exact_series = 100 / 3).
    { unfold fast_d. unfold exact_series at 1. rewrite some_ticks. unfold prefixes.
      cbn [map length seq firstn]. unfold lastn. cbn [map length Nat.sub skipn].
      unfold percent_k, lastn. change (Z.to_nat 3) with 3%nat. cbn [map length Nat.sub Init.Nat.sub skipn rev app real_tick high low close].
      rewrite !zf_real by lia. unfold min_of, max_of. cbn [fold_left].
      rewrite (Rmin_right 10 9), (Rmin_left 9 9), (Rmin_left 9 11), (Rmax_left 12 9), (Rmax_left 9 9), (Rmax_right 9 11), (Rmax_left 12 9) by lra.
      rewrite !K by lra. unfold mean, Rsum. cbn [fold_right length INR]. lra. }
    split; [exact E1|]. split; [exact E2|].
    destruct (C111_stochastic lm as_ sh as' 3 60 (some_updates lm as_)) as (s0 & s & A1 & A2 & _ & A3 & _ & A4 & _).
    - lia.
    - lia.
    - discriminate.
    - apply some_ordered.
    - intros u Hu. split; [apply some_valid; exact Hu|]. destruct (some_bounded lm as_ u Hu) as (F & B). split; [exact F|apply B].
    - rewrite some_ticks. unfold prefixes. cbn [map length seq firstn].
      unfold clear_span, span, lastn. change (Z.to_nat 3) with 3%nat. cbn [map length Nat.sub Init.Nat.sub skipn high low].
      repeat apply Forall_cons; try apply Forall_nil; right; cbn [map length Nat.sub Init.Nat.sub skipn high low]; rewrite !zf_real by lia; unfold min_of, max_of; cbn [fold_left];
        rewrite ?(Rmin_right 10 9), ?(Rmin_left 9 9), ?(Rmin_left 9 11), ?(Rmax_left 12 9), ?(Rmax_left 9 9), ?(Rmax_right 9 11), ?(Rmax_left 12 9) by lra; lra.
    - rewrite some_ticks. cbn [length Z.of_nat]. lia.
    - exists s0, s. split; [exact A1|]. split; [exact A2|]. fold exact_series in A3, A4. rewrite E1 in A3. rewrite E2 in A4.
      split; [exact A3|]. rewrite some_ticks in A4. cbn [length] in A4. replace (INR 4) with 4 in A4 by (cbn; lra). exact A4.
  Qed.
End Example.

Print Assumptions C111_stochastic.
Print Assumptions C111_ex.
