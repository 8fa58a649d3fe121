(** Converted ticks can be traded on. *)
From Coq Require Import Reals ZArith Lra Lia Bool String.
From Coq Require Import List.
From Flocq Require Import Core BinarySingleNaN.
From Verif.Model Require Import Outcome Machine Types MachineIEEE Eval Files Programs.
From Verif.Spec Require Import SeriesSpec AccountIEEESpec ProgressSpec PipelineSpec.
From Verif.Proofs Require Import Base FloatLemmas SeriesProofs OrderLaws SeriesValid.
Import ListNotations.
Local Open Scope R_scope.

Section Strict.
  Context {M : machine}.

  Lemma grid_bounds p us b : (0 < p)%Z -> ordered timestamp_sec us -> (forall u, In u us -> p <= timestamp_sec u)%Z ->
    In b (grid p us) -> (0 < b)%Z /\ exists u, In u us /\ (b <= timestamp_sec u)%Z.
  Proof.
    intros Hp Ho Hu Hb. destruct (in_grid p Hp us b Ho Hb) as (u & rest & E & H1 & H2).
    assert (Hi : In u us) by (subst; left; reflexivity).
    assert (Hl : In (last us u) us).
    { destruct (list_snoc us) as [->|(l & x & ->)]; [destruct Hi|]. rewrite last_snoc. apply in_or_app. right. left. reflexivity. }
    split.
    - assert (1 <= Z.quot (timestamp_sec u) p)%Z by (apply Z.quot_le_lower_bound; [lia|specialize (Hu u Hi); lia]).
      unfold bucket_of, bucket in H1. nia.
    - exists (last us u). split; [exact Hl|]. unfold bucket_of, bucket in H2.
      pose proof (Z.mul_quot_le (timestamp_sec (last us u)) p). specialize (Hu _ Hl). lia.
  Qed.

  Lemma series_strict p us : (0 < p)%Z -> ordered timestamp_sec us -> (forall u, In u us -> p <= timestamp_sec u)%Z ->
    strictly_ordered (series p us).
  Proof.
    intros Hp Ho Hu. split.
    - intros t Ht. apply in_map_iff in Ht as (b & <- & Hb). rewrite period_tick_ts. eapply grid_bounds; eauto.
    - intros i j t t' H1 H2 L.
      assert (T : forall k x, nth_error (series p us) k = Some x -> nth_error (grid p us) k = Some (timestamp_sec x)).
      { intros k x H. rewrite <- (series_grid p us), nth_error_map, H. reflexivity. }
      apply T in H1, H2. clear T. unfold grid in H1, H2. destruct us as [|u us]; [destruct i; discriminate|].
      rewrite nth_error_map in H1, H2.
      set (n := S _) in *. clearbody n.
      assert (S_ : forall k m, (k < n)%nat -> nth_error (seq 0 n) k = Some m -> m = k).
      { intros k m Hk H. apply (nth_error_nth _ _ 0%nat) in H. rewrite seq_nth in H by exact Hk. lia. }
      assert (Bd : forall k m, nth_error (seq 0 n) k = Some m -> m = k).
      { intros k m H. apply S_; [|exact H]. rewrite <- (seq_length n 0). apply nth_error_Some. congruence. }
      destruct (nth_error (seq 0 n) i) eqn:E1; [|discriminate]. destruct (nth_error (seq 0 n) j) eqn:E2; [|discriminate].
      apply Bd in E1, E2. subst. injection H1 as H1. injection H2 as H2. rewrite <- H1, <- H2. nia.
  Qed.
End Strict.

(** 2^40 + 2^16 rounds to 2^40. *)
Lemma absorb : rnd (bpow radix2 40 + bpow radix2 16) = bpow radix2 40.
Proof.
  set (x := f32_of_Z (2 ^ 40)). set (y := f32_of_Z (2 ^ 16)).
  assert (Fx : is_finite x = true) by (vm_compute; reflexivity).
  assert (Fy : is_finite y = true) by (vm_compute; reflexivity).
  assert (Vx : B2R x = bpow radix2 40).
  { rewrite <- SF2R_B2SF. replace (B2SF x) with (SpecFloat.S754_finite false 8388608 17) by (vm_compute; reflexivity).
    unfold SF2R, F2R. cbn [Fnum Fexp SpecFloat.cond_Zopp]. change (IZR (Z.pos 8388608)) with (bpow radix2 23). rewrite <- bpow_plus. reflexivity. }
  assert (Vy : B2R y = bpow radix2 16).
  { rewrite <- SF2R_B2SF. replace (B2SF y) with (SpecFloat.S754_finite false 8388608 (-7)) by (vm_compute; reflexivity).
    unfold SF2R, F2R. cbn [Fnum Fexp SpecFloat.cond_Zopp]. change (IZR (Z.pos 8388608)) with (bpow radix2 23). rewrite <- bpow_plus. reflexivity. }
  pose proof (Bplus_correct 24 128 _ _ mode_NE x y Fx Fy) as H. cbn [round_mode] in H. rewrite Vx, Vy in H.
  rewrite (no_overflow _ 41) in H; [|lia|].
  - destruct H as (HR & _). unfold rnd in HR |- *. rewrite <- HR.
    rewrite <- SF2R_B2SF. replace (B2SF (Bplus mode_NE x y)) with (SpecFloat.S754_finite false 8388608 17) by (vm_compute; reflexivity).
    unfold SF2R, F2R. cbn [Fnum Fexp SpecFloat.cond_Zopp]. change (IZR (Z.pos 8388608)) with (bpow radix2 23). rewrite <- bpow_plus. reflexivity.
  - change (bpow radix2 41) with (IZR (2 ^ 41)). change (bpow radix2 40) with (IZR (2 ^ 40)). change (bpow radix2 16) with (IZR (2 ^ 16)).
    rewrite <- plus_IZR, <- abs_IZR. apply IZR_le. lia.
Qed.

Section Quoted.
  Context {lm : libm} {as_ : bool}.
  Local Notation I := (ieee lm as_).
  Local Notation O := (ieee_order lm as_).

  Lemma sum_volume (l : list f32) (x : f32) : in_range 0 (bpow radix2 40) x -> (forall y, In y l -> in_range 0 (bpow radix2 16) y) ->
    in_range 0 (bpow radix2 40) (fold_left (fadd (machine := I)) l x).
  Proof.
    revert x. induction l as [|a l IH]; intros x Hx Hl; [exact Hx|]. cbn [fold_left]. apply IH; [|intros y Hy; apply Hl; right; exact Hy].
    destruct Hx as [Fx Vx]. destruct (Hl a (or_introl eq_refl)) as [Fa Va].
    assert (L : bpow radix2 16 <= bpow radix2 40) by (apply bpow_le; lia).
    destruct (Bplus_nneg 40 x a) as [[F V] HR]; [lia|split; assumption|split; [assumption|lra]|].
    split; [exact F|]. cbn [fadd ieee]. split; [apply V|]. change (@flt I) with f32 in *. rewrite HR.
    rewrite <- absorb. apply rnd_mono. lra.
  Qed.

  Lemma series_quoted p (rs : list (@price_record I)) : (0 < p)%Z -> ordered pr_timestamp_sec rs -> Forall tradable rs ->
    Forall quoted (series p (map price_tick rs)).
  Proof.
    intros Hp Ho Ht. set (us := map price_tick rs).
    assert (Ou : ordered timestamp_sec us) by (apply ordered_map; exact Ho).
    assert (K : forall u, In u us -> exists r, u = price_tick r /\ tradable r).
    { intros u Hu. apply in_map_iff in Hu as (r & <- & Hr). exists r. split; [reflexivity|]. rewrite Forall_forall in Ht. auto. }
    assert (P0 : 0 < bpow radix2 (-19)) by apply bpow_gt_0.
    assert (P1 : bpow radix2 (-26) <= bpow radix2 (-19)) by (apply bpow_le; lia).
    assert (P2 : bpow radix2 19 <= bpow radix2 26) by (apply bpow_le; lia).
    assert (P3 : bpow radix2 16 <= bpow radix2 40) by (apply bpow_le; lia).
    assert (N : forall r : @price_record I, tradable r -> OrderLaws.num O (pr_price r) = true).
    { intros r [[F _] _]. apply finite_num. exact F. }
    assert (W : forall x : f32, in_range (bpow radix2 (-19)) (bpow radix2 19) x -> ok_price x).
    { intros x [F V]. split; [exact F|lra]. }
    apply Forall_forall. intros t Hin. apply in_map_iff in Hin as (b & <- & Hb).
    destruct (in_grid p Hp us b Ou Hb) as (u0 & rest0 & E & Hle & _).
    unfold period_tick. destruct (in_period p us b) as [|u rest] eqn:Ep.
    - destruct (rev (before_period p us b)) as [|x l] eqn:Eb.
      + exfalso. assert (bucket_of p u0 <> b).
        { intros H. apply (filter_first_nonempty (fun u => (bucket_of p u =? b)%Z) us u0); [rewrite E; left; reflexivity| |exact Ep].
          apply Z.eqb_eq. exact H. }
        apply (filter_first_nonempty (fun u => (bucket_of p u <? b)%Z) us u0); [rewrite E; left; reflexivity|apply Z.ltb_lt; lia|].
        apply (f_equal (@rev _)) in Eb. rewrite rev_involutive in Eb. exact Eb.
      + assert (Hx : In x us).
        { assert (In x (rev (before_period p us b))) as H by (rewrite Eb; left; reflexivity).
          apply in_rev in H. apply filter_In in H. apply H. }
        destruct (K x Hx) as (r & -> & Hr & _). cbn [price_tick close].
        split; [|exact Hr]. unfold flat_at. constructor; cbn [open high low close volume]; try (apply W; exact Hr); try lra.
        split; [reflexivity|]. cbn. lra.
    - assert (Hin : forall y, In y (u :: rest) -> exists r, y = price_tick r /\ tradable r).
      { intros y Hy. rewrite <- Ep in Hy. apply filter_In in Hy as [Hy _]. auto. }
      destruct (Hin u (or_introl eq_refl)) as (r0 & Eu & Hr0).
      destruct (fold_fmax O (map high rest) (high u)) as (X1 & X2 & X3).
      { subst u. apply N, Hr0. }
      { intros y Hy. apply in_map_iff in Hy as (z & <- & Hz). destruct (Hin z (or_intror Hz)) as (r & -> & Hr). apply N, Hr. }
      destruct (fold_fmin O (map low rest) (low u)) as (Y1 & Y2 & Y3).
      { subst u. apply N, Hr0. }
      { intros y Hy. apply in_map_iff in Hy as (z & <- & Hz). destruct (Hin z (or_intror Hz)) as (r & -> & Hr). apply N, Hr. }
      assert (HX : in_range (bpow radix2 (-19)) (bpow radix2 19) (fold_left (fmax (M := I)) (map high rest) (high u))).
      { change (In (fold_left (fmax (M := I)) (map high rest) (high u)) (map high (u :: rest))) in X2.
        apply in_map_iff in X2 as (z & <- & Hz). destruct (Hin z Hz) as (r & -> & Hr). apply Hr. }
      assert (HY : in_range (bpow radix2 (-19)) (bpow radix2 19) (fold_left (fmin (M := I)) (map low rest) (low u))).
      { change (In (fold_left (fmin (M := I)) (map low rest) (low u)) (map low (u :: rest))) in Y2.
        apply in_map_iff in Y2 as (z & <- & Hz). destruct (Hin z Hz) as (r & -> & Hr). apply Hr. }
      assert (HL : In (last rest u) (u :: rest)).
      { destruct (list_snoc rest) as [->|(l & x & ->)]; [left; reflexivity|]. rewrite last_snoc.
        right. apply in_or_app. right. left. reflexivity. }
      destruct (Hin _ HL) as (rl & El & Hrl).
      split; [constructor|]; cbn [open high low close volume].
      + subst u. apply W, Hr0.
      + apply W, HX.
      + apply W, HY.
      + rewrite El. apply W, Hrl.
      + apply sum_volume.
        * subst u. destruct Hr0 as [_ [F V]]. split; [exact F|]. cbn [price_tick volume]. lra.
        * intros y Hy. apply in_map_iff in Hy as (z & <- & Hz). destruct (Hin z (or_intror Hz)) as (r & -> & Hr). apply Hr.
      + specialize (Y3 (low u) (or_introl eq_refl)). cbn [OrderLaws.val ieee_order] in Y3. rewrite !ext_finite in Y3.
        * subst u. exact Y3.
        * subst u. apply Hr0.
        * apply HY.
      + specialize (X3 (high u) (or_introl eq_refl)). cbn [OrderLaws.val ieee_order] in X3. rewrite !ext_finite in X3.
        * subst u. exact X3.
        * apply HX.
        * subst u. apply Hr0.
      + rewrite El. apply Hrl.
  Qed.
End Quoted.
