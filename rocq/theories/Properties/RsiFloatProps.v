(** How far float rounding takes the relative strength index from the exact one. *)
From Coq Require Import Reals ZArith Bool List Lia Lra.
From Flocq Require Import Core BinarySingleNaN.
From Verif.Model Require Import Outcome Machine Types Indicators MachineIEEE.
From Verif.Spec Require Import SeriesSpec IndicatorSpec RsiSpec.
From Verif.Proofs Require Import Base FloatLemmas FloatErr SeriesProofs StochProofs RsiProofs RsiFloat.
From Verif.Properties Require Import IndicatorProps.
Import ListNotations.
Local Open Scope R_scope.

Section Rsi.
  Context (lm : libm) (as_ : bool).
  Local Notation I := (ieee lm as_).

  (** ** C110 The two averages: with no price change above 2^k, each is within n * 2^-20 * 2^k of
      the exact one, whatever the number of updates. *)
  Theorem C110_averages n p k us :
    (1 <= n <= 2 ^ 20)%Z -> (0 < p)%Z -> ordered timestamp_sec us -> (-100 <= k <= 100)%Z ->
    (forall t : @ohlc_tick I, In t us -> is_finite (open t : f32) = true /\ is_finite (close t : f32) = true) ->
    Forall (fun c => Rabs c <= bpow radix2 k) (price_changes (series p us)) ->
    let U := average_rise n (price_changes (series p us)) in
    let D := average_fall n (price_changes (series p us)) in
    let tol := IZR n * / 2 ^ 20 * bpow radix2 k in
    exists s0 s, @NewRsi I p = Done s0 /\ foldM (@rsi_Update I n p) s0 us = Done s /\
      is_finite (@rsi_GetUp I s : f32) = true /\ Rabs (B2R (@rsi_GetUp I s : f32) - U) <= tol /\
      is_finite (@rsi_GetDown I s : f32) = true /\ Rabs (B2R (@rsi_GetDown I s : f32) - D) <= tol.
  Proof.
    intros Hn Hp Ho Hk Hfin HF U D tol.
    destruct (@C47_rsi_formula I n p us Hp Ho) as (s0 & s & E0 & E1 & E2 & E3 & _).
    exists s0, s. split; [exact E0|]. split; [exact E1|]. rewrite E2, E3.
    destruct (averages_err lm as_ k n p us Hk Hn Hfin HF) as (A & B & C & D').
    unfold tol, U, D. replace (2 ^ 20) with 1048576 by lra.
    split; [apply A|]. split; [exact C|]. split; [apply B|exact D'].
  Qed.

  (** The index: 100 * U / (U + D) up to the error of the averages relative to their sum, plus
      2^-13, as soon as the averages are not themselves negligible. *)
  Theorem C110_index n p k us :
    (1 <= n <= 2 ^ 20)%Z -> (0 < p)%Z -> ordered timestamp_sec us -> (-100 <= k <= 100)%Z ->
    (forall t : @ohlc_tick I, In t us -> is_finite (open t : f32) = true /\ is_finite (close t : f32) = true) ->
    Forall (fun c => Rabs c <= bpow radix2 k) (price_changes (series p us)) ->
    let U := average_rise n (price_changes (series p us)) in
    let D := average_fall n (price_changes (series p us)) in
    let tol := IZR n * / 2 ^ 20 * bpow radix2 k in
    / 2 ^ 18 + 2 * tol <= U + D ->
    exists s0 s, @NewRsi I p = Done s0 /\ foldM (@rsi_Update I n p) s0 us = Done s /\
      is_finite (@rsi_Get I s : f32) = true /\
      Rabs (B2R (@rsi_Get I s : f32) - 100 * U / (U + D)) <= 100 * tol / (U + D) + / 2 ^ 13.
  Proof.
    intros Hn Hp Ho Hk Hfin HF U D tol HUD.
    destruct (@C47_rsi_formula I n p us Hp Ho) as (s0 & s & E0 & E1 & _ & _ & E4 & _).
    exists s0, s. split; [exact E0|]. split; [exact E1|]. rewrite E4.
    destruct (averages_err lm as_ k n p us Hk Hn Hfin HF) as (A & B & C & D').
    fold U in C. fold D in D'. assert (Et : IZR n * / 1048576 * bpow radix2 k = tol) by (unfold tol; f_equal; f_equal; f_equal; lra).
    rewrite Et in C, D'.
    assert (Ht : 0 <= tol).
    { pose proof (bpow_gt_0 radix2 k). assert (0 <= IZR n) by (apply IZR_le; lia). unfold tol.
      apply Rmult_le_pos; [apply Rmult_le_pos; lra|lra]. }
    set (u := @mma_of I n (@upward_changes I (series p us)) : f32) in *.
    set (d := @mma_of I n (@downward_changes I (series p us)) : f32) in *.
    assert (Hs : bpow radix2 (-18) <= B2R u + B2R d).
    { change (bpow radix2 (-18)) with (/ 262144). replace (/ 2 ^ 18) with (/ 262144) in HUD by (f_equal; lra).
      apply Rabs_le_inv in C. apply Rabs_le_inv in D'. lra. }
    destruct (rsi_err lm as_ u d) as (F & E).
    { eapply nneg_weaken; [|exact A]. lia. }
    { eapply nneg_weaken; [|exact B]. lia. }
    { exact Hs. }
    split; [exact F|].
    assert (H18 : 0 < / 2 ^ 18) by (apply Rinv_0_lt_compat; lra).
    pose proof (bpow_gt_0 radix2 (-18)).
    pose proof (index_perturb (B2R u) (B2R d) U D tol ltac:(apply A) ltac:(apply B) ltac:(lra) ltac:(lra) C D') as P.
    replace (/ 2 ^ 13) with (/ 8192) by (f_equal; lra).
    change (@flt I) with f32 in *.
    match goal with |- Rabs (?x - ?y) <= _ => replace (x - y) with ((x - 100 * B2R u / (B2R u + B2R d)) + (100 * B2R u / (B2R u + B2R d) - y)) by ring end.
    eapply Rle_trans; [apply Rabs_triang|]. lra.
  Qed.

  (** A price that never moves by more than 2^-21 from period to period has an RSI of exactly 50. *)
  Theorem C110_quiet n p us :
    (1 <= n <= 2 ^ 20)%Z -> (0 < p)%Z -> ordered timestamp_sec us ->
    (forall t : @ohlc_tick I, In t us -> is_finite (open t : f32) = true /\ is_finite (close t : f32) = true) ->
    Forall (fun c => Rabs c <= / 2 ^ 21) (price_changes (series p us)) ->
    exists s0 s, @NewRsi I p = Done s0 /\ foldM (@rsi_Update I n p) s0 us = Done s /\
      is_finite (@rsi_Get I s : f32) = true /\ B2R (@rsi_Get I s : f32) = 50.
  Proof.
    intros Hn Hp Ho Hfin HF.
    destruct (@C47_rsi_formula I n p us Hp Ho) as (s0 & s & E0 & E1 & _ & _ & E4 & _).
    exists s0, s. split; [exact E0|]. split; [exact E1|]. rewrite E4.
    assert (H21 : / 2 ^ 21 = / 2097152) by (f_equal; lra).
    assert (HF' : Forall (fun c => Rabs c <= bpow radix2 (-21)) (price_changes (series p us))).
    { eapply Forall_impl; [|exact HF]. intros c Hc. cbn beta in Hc. change (bpow radix2 (-21)) with (/ 2097152). lra. }
    destruct (small_averages lm as_ n p us Hn Hfin HF') as (A & B).
    set (u := @mma_of I n (@upward_changes I (series p us)) : f32) in *.
    set (d := @mma_of I n (@downward_changes I (series p us)) : f32) in *.
    destruct (eps_bound lm as_) as [P1 P2]. destruct (ofZ_finite 50 ltac:(lia)) as [F50 R50].
    unfold rsi_of. cbn [fltb ieee]. set (eps := @flit I 1 1000000 : f32) in *.
    change (@flit I 1 1000000) with eps. change (@flt I) with f32 in *.
    rewrite !Bltb_ext by (try (eapply nneg_num; eassumption); apply finite_num; exact P2).
    rewrite !ext_finite by (first [exact P2|apply A|apply B]).
    rewrite !Rlt_bool_true by (destruct A as (_ & A); destruct B as (_ & B); lra).
    cbn [andb]. split; [exact F50|exact R50].
  Qed.
End Rsi.

(** ** A case: the updates of C47's example over two periods' averaging. *)
Section Example.
  Context (lm : libm) (as_ : bool).
  Local Notation I := (ieee lm as_).

  Lemma some_changes : price_changes (series 60 (some_updates lm as_)) = [2; -3; 0; 2].
  Proof.
    unfold price_changes.
    set (l := combine (@reference_prices I (series 60 (some_updates lm as_))) (map (@close I) (series 60 (some_updates lm as_))) : list (f32 * f32)).
    assert (E : map (fun x => (B2SF (fst x), B2SF (snd x))) l
                = [(B2SF (zf 10), B2SF (zf 12)); (B2SF (zf 12), B2SF (zf 9)); (B2SF (zf 9), B2SF (zf 9)); (B2SF (zf 9), B2SF (zf 11))])
      by (vm_compute; reflexivity).
    transitivity (map (fun q => SF2R radix2 (snd q) - SF2R radix2 (fst q)) (map (fun x : f32 * f32 => (B2SF (fst x), B2SF (snd x))) l)).
    - rewrite map_map. apply map_ext. intros x. cbn [fst snd]. rewrite !SF2R_B2SF. reflexivity.
    - etransitivity; [apply (f_equal (map (fun q => SF2R radix2 (snd q) - SF2R radix2 (fst q))) E)|]. cbn [map fst snd]. rewrite !SF2R_B2SF. unfold zf.
      rewrite !(fun z H => proj2 (ofZ_finite z H)) by lia. assert (C : forall (a b : R) l m, a = b -> l = m -> a :: l = b :: m) by (intros; f_equal; assumption).
      do 4 (apply C; [lra|]). reflexivity.
  Qed.

  (** The exact averages are 1.25 and 0.375, the exact index is 76.92; the float index is that up to 2^-9. *)
  Lemma C110_ex :
    average_rise 2 [2; -3; 0; 2] = 5 / 4 /\ average_fall 2 [2; -3; 0; 2] = 3 / 8 /\
    exists s0 s, @NewRsi I 60 = Done s0 /\ foldM (@rsi_Update I 2 60) s0 (some_updates lm as_) = Done s /\
      is_finite (@rsi_Get I s : f32) = true /\ Rabs (B2R (@rsi_Get I s : f32) - 1000 / 13) <= / 2 ^ 9.
  Proof.
    assert (HU : average_rise 2 [2; -3; 0; 2] = 5 / 4).
    { unfold average_rise, Rmma. cbn [map length seq combine fold_left fst snd].
      change (Z.min (Z.of_nat 2) 2) with 2%Z. change (Z.min (Z.of_nat 3) 2) with 2%Z. change (Z.min (Z.of_nat 4) 2) with 2%Z.
      rewrite (Rmax_right 0 2), (Rmax_left 0 (-3)), (Rmax_left 0 0) by lra. lra. }
    assert (HD : average_fall 2 [2; -3; 0; 2] = 3 / 8).
    { unfold average_fall, Rmma. cbn [map length seq combine fold_left fst snd].
      change (Z.min (Z.of_nat 2) 2) with 2%Z. change (Z.min (Z.of_nat 3) 2) with 2%Z. change (Z.min (Z.of_nat 4) 2) with 2%Z.
      rewrite (Rmax_left 0 (- (2))), (Rmax_right 0 (- (-3))), (Rmax_left 0 (- 0)) by lra. lra. }
    split; [exact HU|]. split; [exact HD|].
    destruct (C110_index lm as_ 2 60 2 (some_updates lm as_)) as (s0 & s & E0 & E1 & F & E).
    - lia.
    - lia.
    - apply some_ordered.
    - lia.
    - intros t [<-|[<-|[<-|[<-|[]]]]]; split; reflexivity.
    - rewrite some_changes. change (bpow radix2 2) with 4. do 4 (apply Forall_cons; [apply Rabs_le; lra|]). constructor.
    - rewrite some_changes, HU, HD. change (bpow radix2 2) with 4. lra.
    - exists s0, s. split; [exact E0|]. split; [exact E1|]. split; [exact F|].
      rewrite some_changes, HU, HD in E. change (bpow radix2 2) with 4 in E.
      replace (100 * (5 / 4) / (5 / 4 + 3 / 8)) with (1000 / 13) in E by field.
      eapply Rle_trans; [exact E|]. lra.
  Qed.
End Example.

Print Assumptions C110_averages.
Print Assumptions C110_index.
Print Assumptions C110_quiet.
Print Assumptions C110_ex.
