(** The account in IEEE arithmetic. *)
From Coq Require Import Reals ZArith Bool List Lra Lia.
From Flocq Require Import Core BinarySingleNaN.
From Verif.Model Require Import Outcome Machine Types Account MachineIEEE.
From Verif.Spec Require Import AccountSpec AccountIEEESpec OrderSpec.
From Verif.Proofs Require Import Base FloatLemmas AccountAny.
Import ListNotations.
Local Open Scope R_scope.

(** rnd at most doubles a non-negative number. *)
Lemma rnd_le_2 y : 0 <= y -> rnd y <= 2 * y.
Proof.
  intros [Hy|<-]; [|rewrite rnd_0; lra].
  destruct (mag radix2 y) as [e He]. specialize (He ltac:(lra)).
  rewrite Rabs_pos_eq in He by lra.
  destruct (Z_le_gt_dec (-149) e) as [L|L].
  - apply Rle_trans with (bpow radix2 e).
    + apply rnd_le_bpow; auto; lra.
    + replace e with (e - 1 + 1)%Z by ring. rewrite bpow_plus_1. simpl (IZR radix2). lra.
  - replace (rnd y) with 0; [lra|]. symmetry.
    apply (round_N_small_pos radix2 fexp32 _ y e); auto.
    unfold SpecFloat.fexp, SpecFloat.emin. lia.
Qed.

Lemma Zrnd_le_plus1 md x : IZR (round_mode md x) <= x + 1.
Proof.
  assert (V : Valid_rnd (round_mode md)) by exact _.
  assert (H : (round_mode md x <= Zfloor x + 1)%Z).
  { rewrite <- (@Zrnd_IZR (round_mode md) V (Zfloor x + 1)).
    apply (@Zrnd_le (round_mode md) V). rewrite plus_IZR. apply Rlt_le, Zfloor_ub. }
  apply IZR_le in H. rewrite plus_IZR in H. pose proof (Zfloor_lb x). lra.
Qed.

Lemma Bmult_nneg_le n j k x y : (-149 <= n < 128)%Z -> nneg j x -> nneg k y ->
  B2R x * B2R y <= bpow radix2 n -> nneg n (Bmult mode_NE x y).
Proof.
  intros Hn [Fx Hx] [Fy Hy] L. assert (H0 : 0 <= B2R x * B2R y) by (apply Rmult_le_pos; lra).
  pose proof (Bmult_correct 24 128 _ _ mode_NE x y) as H. cbn [round_mode] in H.
  rewrite (no_overflow _ n) in H by (try lia; rewrite Rabs_pos_eq; lra).
  destruct H as (HR & HF & _). rewrite Fx, Fy in HF.
  split; [exact HF|]. rewrite HR. split; [apply rnd_nonneg; lra | apply rnd_le_bpow; [lia|lra]].
Qed.

(** unit * rounded(amount / unit) *)
Lemma unit_round_nneg md k x u :
  (20 <= k <= 97)%Z -> nneg k x -> is_finite u = true ->
  bpow radix2 (-30) <= B2R u <= bpow radix2 20 ->
  nneg (k + 3) (Bmult mode_NE u (Bnearbyint md (Bdiv mode_NE x u))) /\
  B2R (Bmult mode_NE u (Bnearbyint md (Bdiv mode_NE x u)))
    = rnd (B2R u * IZR (round_mode md (rnd (B2R x / B2R u)))).
Proof.
  intros Hk Hx Fu Hu.
  destruct (Bdiv_nneg 30 k x u ltac:(lia) Hx Fu (proj1 Hu)) as [Hd Ed].
  pose proof (Bnearbyint_nneg md (30 + k) _ ltac:(lia) Hd) as Hn.
  destruct (nearbyint_IZR md (Bdiv mode_NE x u)) as [En Fn].
  set (z := Bdiv mode_NE x u) in *. set (n := Bnearbyint md z) in *.
  destruct Hx as [Fx Hx]. pose proof (bpow_gt_0 radix2 (-30)) as H30.
  assert (Hu0 : 0 < B2R u) by lra.
  assert (Hxu : 0 <= B2R x / B2R u).
  { apply Rmult_le_pos; [lra|]. left; apply Rinv_0_lt_compat; lra. }
  assert (Hz : B2R z <= 2 * (B2R x / B2R u)) by (rewrite Ed; apply rnd_le_2; exact Hxu).
  assert (Hn1 : B2R n <= 2 * (B2R x / B2R u) + 1).
  { rewrite En. pose proof (Zrnd_le_plus1 md (B2R z)). lra. }
  assert (Hprod : B2R u * B2R n <= 2 * B2R x + B2R u).
  { apply Rle_trans with (B2R u * (2 * (B2R x / B2R u) + 1)).
    - apply Rmult_le_compat_l; lra.
    - right. field. lra. }
  assert (Hbk : bpow radix2 20 <= bpow radix2 k) by (apply bpow_le; lia).
  assert (H8 : bpow radix2 (k + 3) = 8 * bpow radix2 k).
  { rewrite bpow_plus. change (bpow radix2 3) with 8. ring. }
  assert (Hp0 : 0 <= B2R u * B2R n) by (apply Rmult_le_pos; [lra|apply Hn]).
  assert (Hle : B2R u * B2R n <= bpow radix2 (k + 3)) by lra.
  pose proof (Bmult_correct 24 128 _ _ mode_NE u n) as H. cbn [round_mode] in H.
  rewrite (no_overflow _ (k + 3)) in H by (try lia; rewrite Rabs_pos_eq; lra).
  destruct H as (HR & HF & _). destruct Hn as [Fn' _]. rewrite Fu, Fn' in HF.
  split.
  - split; [exact HF|]. rewrite HR. split; [apply rnd_nonneg; lra|].
    apply rnd_le_bpow; [lia|lra].
  - rewrite HR, En, Ed. reflexivity.
Qed.

(** ... is at most 4 * amount + 2 * unit, and at least the unit if the amount is. *)
Lemma unit_round_le md k x u :
  (20 <= k <= 97)%Z -> nneg k x -> is_finite u = true ->
  bpow radix2 (-30) <= B2R u <= bpow radix2 20 ->
  B2R (Bmult mode_NE u (Bnearbyint md (Bdiv mode_NE x u))) <= 4 * B2R x + 2 * B2R u.
Proof.
  intros Hk Hx Fu Hu. destruct (unit_round_nneg md k x u Hk Hx Fu Hu) as [_ ->].
  pose proof (bpow_gt_0 radix2 (-30)) as H30. destruct Hx as [Fx Hx].
  assert (Hxu : 0 <= B2R x / B2R u).
  { apply Rmult_le_pos; [lra|]. left; apply Rinv_0_lt_compat; lra. }
  pose proof (rnd_le_2 _ Hxu) as H2. pose proof (Zrnd_le_plus1 md (rnd (B2R x / B2R u))) as H1.
  assert (N0 : 0 <= IZR (round_mode md (rnd (B2R x / B2R u)))).
  { apply (IZR_le 0). rewrite <- (@Zrnd_IZR (round_mode md) _ 0). apply (@Zrnd_le (round_mode md) _). apply rnd_nonneg. exact Hxu. }
  eapply Rle_trans; [apply rnd_le_2; apply Rmult_le_pos; lra|].
  assert (B2R u * IZR (round_mode md (rnd (B2R x / B2R u))) <= B2R u * (2 * (B2R x / B2R u) + 1)) by (apply Rmult_le_compat_l; lra).
  replace (B2R u * (2 * (B2R x / B2R u) + 1)) with (2 * B2R x + B2R u) in * by (field; lra). lra.
Qed.

Lemma unit_round_ge md k x u :
  (20 <= k <= 97)%Z -> nneg k x -> is_finite u = true ->
  bpow radix2 (-30) <= B2R u <= bpow radix2 20 -> B2R u <= B2R x ->
  B2R u <= B2R (Bmult mode_NE u (Bnearbyint md (Bdiv mode_NE x u))).
Proof.
  intros Hk Hx Fu Hu L. destruct (unit_round_nneg md k x u Hk Hx Fu Hu) as [_ ->].
  pose proof (bpow_gt_0 radix2 (-30)) as H30.
  assert (H1 : 1 <= rnd (B2R x / B2R u)).
  { apply round_ge_generic; try exact _; [change 1 with (bpow radix2 0); apply format_bpow; lia|].
    apply Rmult_le_reg_r with (B2R u); [lra|]. unfold Rdiv. rewrite Rmult_assoc, Rinv_l by lra. lra. }
  assert (N1 : 1 <= IZR (round_mode md (rnd (B2R x / B2R u)))).
  { apply (IZR_le 1). rewrite <- (@Zrnd_IZR (round_mode md) _ 1). apply (@Zrnd_le (round_mode md) _). exact H1. }
  apply round_ge_generic; try exact _; [apply generic_format_B2R|].
  rewrite <- (Rmult_1_r (B2R u)) at 1. apply Rmult_le_compat_l; lra.
Qed.

Lemma fltb_true (x y : f32) : is_finite x = true -> is_finite y = true ->
  Bltb x y = true -> B2R x < B2R y.
Proof.
  intros Fx Fy H. rewrite Bltb_ext in H by (apply finite_num; assumption).
  rewrite !ext_finite in H by assumption. destruct (Rlt_bool_spec (B2R x) (B2R y)); auto; discriminate.
Qed.
Lemma fltb_false (x y : f32) : is_finite x = true -> is_finite y = true ->
  Bltb x y = false -> B2R y <= B2R x.
Proof.
  intros Fx Fy H. rewrite Bltb_ext in H by (apply finite_num; assumption).
  rewrite !ext_finite in H by assumption. destruct (Rlt_bool_spec (B2R x) (B2R y)); auto; discriminate.
Qed.
Lemma fltb_intro (x y : f32) : is_finite x = true -> is_finite y = true ->
  B2R x < B2R y -> Bltb x y = true.
Proof.
  intros Fx Fy H. rewrite Bltb_ext by (apply finite_num; assumption).
  rewrite !ext_finite by assumption. apply Rlt_bool_true; exact H.
Qed.
Lemma fleb_intro (x y : f32) : is_finite x = true -> is_finite y = true ->
  B2R x <= B2R y -> Bleb x y = true.
Proof.
  intros Fx Fy H. rewrite Bleb_ext by (apply finite_num; assumption).
  rewrite !ext_finite by assumption. apply Rle_bool_true; exact H.
Qed.
Lemma fleb_false (x y : f32) : is_finite x = true -> is_finite y = true ->
  Bleb x y = false -> B2R y < B2R x.
Proof.
  intros Fx Fy H. rewrite Bleb_ext in H by (apply finite_num; assumption).
  rewrite !ext_finite in H by assumption. destruct (Rle_bool_spec (B2R x) (B2R y)); auto; discriminate.
Qed.

Section IEEE.
  Context {lm : libm} {as_ : bool}.
  Local Notation I := (ieee lm as_).

  Lemma zero_finite : is_finite (f32_of_Z 0) = true /\ B2R (f32_of_Z 0) = 0.
  Proof. rewrite ofZ_0. split; reflexivity. Qed.

  Lemma one_finite : is_finite (f32_of_Z 1) = true /\ B2R (f32_of_Z 1) = 1.
  Proof. apply ofZ_finite. cbn. lia. Qed.

  (** The three roundings of account.cc keep amounts non-negative and bounded. *)
  Lemma rounding_nneg (rd : f32 -> f32) md k x u :
    (rd = Bnearbyint md) ->
    (20 <= k <= 97)%Z -> nneg k x -> ok_unit u ->
    nneg (k + 3) (if Bltb (f32_of_Z 0) u then Bmult mode_NE u (rd (Bdiv mode_NE x u)) else x).
  Proof.
    intros -> Hk Hx [Fu Hu]. destruct zero_finite as [F0 R0].
    destruct (Bltb (f32_of_Z 0) u) eqn:E.
    - apply fltb_true in E; auto. rewrite R0 in E.
      destruct Hu as [Hu|Hu]; [lra|]. apply (unit_round_nneg md k x u); auto.
    - apply (nneg_weaken k); auto. lia.
  Qed.

  Lemma Round_nneg k (x u : @flt I) : (20 <= k <= 97)%Z -> nneg k x -> ok_unit u -> nneg (k + 3) (@Round I x u).
  Proof. intros. apply (rounding_nneg _ mode_NA); auto. Qed.
  Lemma Ceil_nneg k (x u : @flt I) : (20 <= k <= 97)%Z -> nneg k x -> ok_unit u -> nneg (k + 3) (@Ceil I x u).
  Proof. intros. apply (rounding_nneg _ mode_UP); auto. Qed.
  Lemma Floor_nneg k (x u : @flt I) : (20 <= k <= 97)%Z -> nneg k x -> ok_unit u -> nneg (k + 3) (@Floor I x u).
  Proof. intros. apply (rounding_nneg _ mode_DN); auto. Qed.

  Lemma rounding_le (rd : f32 -> f32) md k x u : rd = Bnearbyint md -> (20 <= k <= 97)%Z -> nneg k x -> ok_unit u ->
    B2R (if Bltb (f32_of_Z 0) u then Bmult mode_NE u (rd (Bdiv mode_NE x u)) else x) <= 4 * B2R x + 2 * B2R u.
  Proof.
    intros -> Hk Hx [Fu Hu]. destruct zero_finite as [F0 R0].
    destruct (Bltb (f32_of_Z 0) u) eqn:E.
    - apply fltb_true in E; auto. rewrite R0 in E.
      destruct Hu as [Hu|Hu]; [lra|]. apply (unit_round_le md k x u); auto.
    - apply fltb_false in E; auto. rewrite R0 in E. pose proof (bpow_gt_0 radix2 (-30)). destruct Hx as [_ Hx]. destruct Hu as [Hu|Hu]; lra.
  Qed.
  Lemma Round_le k (x u : @flt I) : (20 <= k <= 97)%Z -> nneg k x -> ok_unit u -> B2R (@Round I x u : f32) <= 4 * B2R (x : f32) + 2 * B2R (u : f32).
  Proof. intros. apply (rounding_le _ mode_NA k); auto. Qed.
  Lemma Floor_le k (x u : @flt I) : (20 <= k <= 97)%Z -> nneg k x -> ok_unit u -> B2R (@Floor I x u : f32) <= 4 * B2R (x : f32) + 2 * B2R (u : f32).
  Proof. intros. apply (rounding_le _ mode_DN k); auto. Qed.
  Lemma Round_ge_unit k (x u : @flt I) : (20 <= k <= 97)%Z -> nneg k x -> ok_unit u -> 0 < B2R (u : f32) -> B2R (u : f32) <= B2R (x : f32) ->
    bpow radix2 (-30) <= B2R (@Round I x u : f32).
  Proof.
    intros Hk Hx [Fu Hu] Hp L. destruct Hu as [Hu|Hu]; [lra|]. destruct zero_finite as [F0 R0].
    unfold Round. cbn [fltb fofZ ieee fmul fround fdiv]. rewrite fltb_intro by (auto; lra).
    eapply Rle_trans; [apply Hu|]. apply (unit_round_ge mode_NA k); auto.
  Qed.

  Lemma range_nneg k x : in_range 0 (bpow radix2 k) x -> nneg k x.
  Proof. intros [F H]. split; auto. Qed.

  Lemma fmax_nneg k (x y : @flt I) : nneg k x -> nneg k y -> nneg k (@fmax I x y).
  Proof. unfold fmax. destruct (fltb x y); auto. Qed.

  Lemma fmin_nneg k (x y : @flt I) : nneg k x -> balance_ok y -> nneg k (@fmin I x y).
  Proof.
    intros Hx [Fy Hy]. unfold fmin. cbn. destruct (Bltb y x) eqn:E; auto.
    pose proof Hx as [Fx Hx']. apply fltb_true in E; auto. split; auto. lra.
  Qed.

  Lemma GetFee_nneg k (a : @account I) fc (x : @flt I) :
    (22 <= k <= 96)%Z -> ok_fees fc -> ok_unit (quote_unit a) -> nneg k x ->
    nneg (k + 4) (@GetFee I a fc x).
  Proof.
    intros Hk [Hr Hf Hm] Hu Hx. unfold GetFee.
    replace (k + 4)%Z with (k + 1 + 3)%Z by ring. apply Ceil_nneg; [lia| |exact Hu].
    apply fmax_nneg.
    - apply (nneg_weaken 20); [lia|]. apply range_nneg; exact Hm.
    - cbn. destruct (Bmult_nneg k 0 x (relative_fee fc) ltac:(lia) Hx) as [Hp _].
      { apply range_nneg. exact Hr. }
      rewrite Z.add_0_r in Hp.
      destruct (Bplus_nneg k (fixed_fee fc) (Bmult mode_NE x (relative_fee fc)) ltac:(lia)) as [Hs _]; auto.
      apply (nneg_weaken 20); [lia|]. apply range_nneg; exact Hf.
  Qed.

  (** The fee never decreases when the amount grows. *)
  Lemma Ceil_mono k (x y u : @flt I) : (20 <= k <= 97)%Z -> nneg k x -> nneg k y -> ok_unit u ->
    B2R (x : f32) <= B2R (y : f32) -> B2R (@Ceil I x u : f32) <= B2R (@Ceil I y u : f32).
  Proof.
    intros Hk Hx Hy [Fu Hu] Hle. unfold Ceil. cbn [fltb fofZ ieee fmul fceil fdiv].
    destruct zero_finite as [F0 R0].
    destruct (Bltb (f32_of_Z 0) u) eqn:E; [|exact Hle].
    apply fltb_true in E; auto. rewrite R0 in E.
    destruct Hu as [Hu|Hu]; [lra|].
    destruct (unit_round_nneg mode_UP k x u Hk Hx Fu Hu) as [_ ->].
    destruct (unit_round_nneg mode_UP k y u Hk Hy Fu Hu) as [_ ->].
    apply rnd_mono. apply Rmult_le_compat_l; [lra|]. apply IZR_le.
    apply (Zrnd_le (round_mode mode_UP)). apply rnd_mono.
    apply Rmult_le_compat_r; [|exact Hle]. left. apply Rinv_0_lt_compat. exact E.
  Qed.

  Lemma fmax_mono k (x y z : @flt I) : nneg k x -> nneg k y -> nneg k z ->
    B2R (y : f32) <= B2R (z : f32) -> B2R (@fmax I x y : f32) <= B2R (@fmax I x z : f32).
  Proof.
    intros [Fx _] [Fy _] [Fz _] Hle. unfold fmax. cbn [fltb ieee].
    destruct (Bltb x y) eqn:E1; destruct (Bltb x z) eqn:E2; auto.
    - apply fltb_true in E1; auto. apply fltb_false in E2; auto. lra.
    - apply fltb_true in E2; auto. lra.
    - lra.
  Qed.

  Lemma GetFee_mono k (a : @account I) fc (x y : @flt I) :
    (22 <= k <= 96)%Z -> ok_fees fc -> ok_unit (quote_unit a) -> nneg k x -> nneg k y ->
    B2R (x : f32) <= B2R (y : f32) -> B2R (@GetFee I a fc x : f32) <= B2R (@GetFee I a fc y : f32).
  Proof.
    intros Hk [Hr Hf Hm] Hu Hx Hy Hle. unfold GetFee. cbn [fadd fmul ieee].
    assert (Hr' : nneg 0 (relative_fee fc)) by (apply range_nneg; exact Hr).
    destruct (Bmult_nneg k 0 x (relative_fee fc) ltac:(lia) Hx Hr') as [Hp1 Ep1].
    destruct (Bmult_nneg k 0 y (relative_fee fc) ltac:(lia) Hy Hr') as [Hp2 Ep2].
    rewrite Z.add_0_r in *.
    assert (Hf' : nneg k (fixed_fee fc)) by (apply (nneg_weaken 20); [lia|apply range_nneg; exact Hf]).
    destruct (Bplus_nneg k (fixed_fee fc) _ ltac:(lia) Hf' Hp1) as [Hs1 Es1].
    destruct (Bplus_nneg k (fixed_fee fc) _ ltac:(lia) Hf' Hp2) as [Hs2 Es2].
    assert (Hm' : nneg (k + 1) (minimum_fee fc)) by (apply (nneg_weaken 20); [lia|apply range_nneg; exact Hm]).
    apply (Ceil_mono (k + 1)); auto using fmax_nneg; [lia|].
    apply (fmax_mono (k + 1)); auto.
    rewrite Es1, Es2. apply rnd_mono. apply Rplus_le_compat_l. rewrite Ep1, Ep2.
    apply rnd_mono. apply Rmult_le_compat_r; [|exact Hle]. apply Hr'.
  Qed.

  (** Rounding gives a whole number of units (times the unit, rounded to a float). *)
  Lemma rounded_whole (rd : f32 -> f32) md (x u : f32) :
    rd = Bnearbyint md -> is_finite u = true -> 0 < B2R u ->
    is_finite (Bmult mode_NE u (rd (Bdiv mode_NE x u))) = true ->
    float_units u (Bmult mode_NE u (rd (Bdiv mode_NE x u))).
  Proof.
    intros -> Fu Hu F. right. exists (Bnearbyint md (Bdiv mode_NE x u)).
    destruct (nearbyint_IZR md (Bdiv mode_NE x u)) as [Hn _].
    repeat split; [|eauto].
    destruct (Bnearbyint md (Bdiv mode_NE x u)) as [s|s| |s m e He]; auto;
      destruct u as [su|su| |su m' e' He']; discriminate.
  Qed.

  Lemma Round_whole_float (x u : @flt I) : is_finite (u : f32) = true -> 0 <= B2R (u : f32) ->
    is_finite (@Round I x u : f32) = true -> float_units u (@Round I x u).
  Proof.
    intros Fu Hu. unfold Round. cbn [fltb fofZ ieee fmul fround fdiv].
    destruct zero_finite as [F0 R0]. destruct (Bltb (f32_of_Z 0) u) eqn:E.
    - apply fltb_true in E; auto. apply (rounded_whole (Bnearbyint mode_NA) mode_NA); auto; lra.
    - apply fltb_false in E; auto. intros _. left. lra.
  Qed.

  Lemma GetFee_whole (a : @account I) fc (x : @flt I) :
    is_finite (quote_unit a : f32) = true -> 0 <= B2R (quote_unit a : f32) ->
    is_finite (@GetFee I a fc x : f32) = true -> float_units (quote_unit a) (@GetFee I a fc x).
  Proof.
    intros Fu Hu. unfold GetFee, Ceil. cbn [fltb fofZ ieee fmul fceil fdiv].
    destruct zero_finite as [F0 R0]. destruct (Bltb (f32_of_Z 0) (quote_unit a)) eqn:E.
    - apply fltb_true in E; auto. apply (rounded_whole (Bnearbyint mode_UP) mode_UP); auto; lra.
    - apply fltb_false in E; auto. intros _. left. lra.
  Qed.

  (** State invariant of one step: settings fine, balances within [0, 2^40]. *)
  Definition bounded40 (a : @account I) : Prop :=
    nneg 40 (base_balance a) /\ nneg 40 (quote_balance a) /\ nneg 40 (total_fee a).

  Definition good_result (a : @account I) (r : outcome (bool * @account I)) : Prop :=
    exists ok a', r = Done (ok, a') /\ balances_ok a' /\ (ok = false -> a' = a) /\
      (0 < B2R (base_unit a : f32) -> 0 < B2R (quote_unit a : f32) -> ok = true ->
       bpow radix2 (-30) <= B2R (base_balance a' : f32) \/ bpow radix2 (-30) <= B2R (quote_balance a' : f32)).

  Lemma nneg_ok k x : nneg k x -> balance_ok x.
  Proof. intros [F H]. split; auto; lra. Qed.

  Lemma bounded_ok a : bounded40 a -> balances_ok a.
  Proof. intros (H1 & H2 & H3). repeat split; (eapply nneg_ok; eassumption). Qed.

  Lemma rejected a : bounded40 a -> good_result a (Done (false, a)).
  Proof. intros H. exists false, a. split; [reflexivity|]. split; [apply bounded_ok, H|]. split; [auto|discriminate]. Qed.

  (** Prices the exchange computes. *)
  Definition exec_price (p : f32) : Prop := in_range (bpow radix2 (-27)) (bpow radix2 27) p.

  Lemma BuyBase_good fc x p a :
    ok_settings a -> bounded40 a -> ok_fees fc -> exec_price p -> nneg 77 x -> B2R x * B2R p <= bpow radix2 87 ->
    good_result a (@BuyBase I fc x p a).
  Proof.
    intros [Hbu Hqu Hl Hvr] Hb Hfc Hp Hx Hxp. unfold BuyBase. cbn [fltb fleb fofZ ieee].
    destruct zero_finite as [F0 R0]. destruct Hp as [Fp Hp].
    pose proof (bpow_gt_0 radix2 (-27)) as H20.
    rewrite (fltb_intro (f32_of_Z 0) p) by (auto; lra). rewrite assert_true. cbn [bind].
    pose proof Hx as [Fx Hx'].
    rewrite (fleb_intro (f32_of_Z 0) x) by (auto; lra). rewrite assert_true. cbn [bind].
    pose proof (Round_nneg 77 x (base_unit a) ltac:(lia) Hx Hbu) as Hb1.
    pose proof (Round_le 77 x (base_unit a) ltac:(lia) Hx Hbu) as Hb2.
    change (77 + 3)%Z with 80%Z in *.
    set (b := @Round I x (base_unit a)) in *.
    destruct (Bltb b (base_unit a)) eqn:Eb; [apply rejected; exact Hb|].
    apply fltb_false in Eb; [|apply Hb1|apply Hbu].
    cbn [fmul ieee].
    assert (Hbp : nneg 90 (Bmult mode_NE b p)).
    { apply (Bmult_nneg_le 90 80 27); [lia|exact Hb1|split; [exact Fp|]|].
      - lra.
      - assert (Hu20 : B2R (base_unit a : f32) <= bpow radix2 20).
        { destruct Hbu as [_ [->|Hu]]; [apply bpow_ge_0|apply Hu]. }
        apply Rle_trans with ((4 * B2R (x : f32) + 2 * B2R (base_unit a : f32)) * B2R p).
        + apply Rmult_le_compat_r; [lra|exact Hb2].
        + assert (B2R (base_unit a : f32) * B2R p <= bpow radix2 20 * bpow radix2 27).
          { apply Rmult_le_compat; try lra. destruct Hbu as [_ [->|Hu]]; [lra|]. pose proof (bpow_gt_0 radix2 (-30)). lra. }
          rewrite <- bpow_plus in *. assert (bpow radix2 (20 + 27) <= bpow radix2 87) by (apply bpow_le; lia).
          replace 90%Z with (87 + 3)%Z by ring. rewrite (bpow_plus radix2 87 3). change (bpow radix2 3) with 8. nra. }
    pose proof (Ceil_nneg 90 _ (quote_unit a) ltac:(lia) Hbp Hqu) as Hc.
    change (90 + 3)%Z with 93%Z in *.
    set (c := @Ceil I (Bmult mode_NE b p) (quote_unit a)) in *.
    pose proof (GetFee_nneg 93 a fc c ltac:(lia) Hfc Hqu Hc) as Hf.
    change (93 + 4)%Z with 97%Z in *.
    set (f := @GetFee I a fc c) in *. cbn [fadd fsub ieee].
    destruct (Bplus_nneg 97 c f ltac:(lia)) as [Ht _]; auto.
    { apply (nneg_weaken 93); auto. lia. }
    set (tot := Bplus mode_NE c f) in *.
    destruct Hb as (Hbb & Hqb & Hfb).
    destruct (Bltb (quote_balance a) tot) eqn:Ecmp; [apply rejected; repeat split; try apply Hbb; try apply Hqb; apply Hfb|].
    apply fltb_false in Ecmp; [|apply Hqb|apply Ht].
    assert (Ht40 : nneg 40 tot).
    { destruct Ht as [Ft Ht]. split; auto. destruct Hqb as [_ Hqb]. lra. }
    destruct (Bminus_nneg 40 (quote_balance a) tot ltac:(lia) Hqb Ht40 Ecmp) as [Hd _].
    assert (Hf41 : nneg 41 f).
    { destruct Hf as [Ff Hf]. split; auto. split; [lra|].
      (* f <= tot because tot = rnd (c + f) and c >= 0 *)
      destruct (Bplus_nneg 97 c f ltac:(lia)) as [_ Et]; auto.
      { apply (nneg_weaken 93); auto. lia. }
      { split; auto. }
      fold tot in Et.
      assert (B2R f <= B2R tot).
      { rewrite Et. rewrite <- (round_generic radix2 fexp32 ZnearestE (B2R f)) at 1.
        - apply rnd_mono. destruct Hc. lra.
        - apply generic_format_B2R. }
      apply Rle_trans with (B2R tot); auto. apply Rle_trans with (bpow radix2 40); [apply Ht40|].
      apply bpow_le; lia. }
    destruct (Bplus_nneg 80 (base_balance a) b ltac:(lia)) as [Hs Es]; auto.
    { apply (nneg_weaken 40); auto. lia. }
    destruct (Bplus_nneg 41 (total_fee a) f ltac:(lia)) as [Hs2 _]; auto.
    { apply (nneg_weaken 40); auto. lia. }
    eexists true, _. split; [reflexivity|]. split; [|split; [discriminate|]].
    2:{ intros Hu1 _ _. left. cbn [set_balances base_balance].
        apply (Round_ge_unit 81); [lia|exact Hs|exact Hbu|exact Hu1|].
        apply Rle_trans with (B2R (b : f32)); [exact Eb|]. rewrite Es.
        rewrite <- (round_generic radix2 fexp32 ZnearestE (B2R (b : f32))) at 1 by apply generic_format_B2R.
        apply rnd_mono. destruct Hbb as [_ Hbb]. lra. }
    repeat split; cbn [set_balances base_balance quote_balance total_fee].
    - eapply (Round_nneg 81); auto. lia.
    - eapply (Round_nneg 81); [lia|exact Hs|exact Hbu].
    - eapply (Round_nneg 40); [lia|exact Hd|exact Hqu].
    - eapply (Round_nneg 40); [lia|exact Hd|exact Hqu].
    - eapply (Round_nneg 42); [lia|exact Hs2|exact Hqu].
    - eapply (Round_nneg 42); [lia|exact Hs2|exact Hqu].
  Qed.

  Lemma SellBase_good fc x p a :
    ok_settings a -> bounded40 a -> ok_fees fc -> exec_price p -> nneg 78 x ->
    good_result a (@SellBase I fc x p a).
  Proof.
    intros [Hbu Hqu Hl Hvr] Hb Hfc Hp Hx. unfold SellBase. cbn [fltb fleb fofZ ieee].
    destruct zero_finite as [F0 R0]. destruct Hp as [Fp Hp].
    pose proof (bpow_gt_0 radix2 (-27)) as H20.
    rewrite (fltb_intro (f32_of_Z 0) p) by (auto; lra). rewrite assert_true. cbn [bind].
    pose proof Hx as [Fx Hx'].
    rewrite (fleb_intro (f32_of_Z 0) x) by (auto; lra). rewrite assert_true. cbn [bind].
    pose proof (Round_nneg 78 x (base_unit a) ltac:(lia) Hx Hbu) as Hb1.
    set (b := @Round I x (base_unit a)) in *.
    destruct (Bltb b (base_unit a)); [apply rejected; exact Hb|]. cbn [orb].
    destruct (Bltb (base_balance a) b) eqn:Ecmp; [apply rejected; exact Hb|].
    destruct Hb as (Hbb & Hqb & Hfb).
    apply fltb_false in Ecmp; [|apply Hbb|apply Hb1].
    assert (Hb40 : nneg 40 b).
    { destruct Hb1 as [Fb Hb1]. split; auto. destruct Hbb as [_ Hbb]. lra. }
    cbn [fmul ieee].
    destruct (Bmult_nneg 40 27 b p ltac:(lia) Hb40) as [Hbp _].
    { split; [exact Fp|lra]. }
    change (40 + 27)%Z with 67%Z in *.
    pose proof (Floor_nneg 67 _ (quote_unit a) ltac:(lia) Hbp Hqu) as Hc.
    change (67 + 3)%Z with 70%Z in *.
    set (c := @Floor I (Bmult mode_NE b p) (quote_unit a)) in *.
    pose proof (GetFee_nneg 70 a fc c ltac:(lia) Hfc Hqu Hc) as Hf.
    change (70 + 4)%Z with 74%Z in *.
    set (f := @GetFee I a fc c) in *. cbn [fadd fsub ieee].
    destruct (Bminus_finite 74 c f ltac:(lia)) as [Ft Et]; auto.
    { apply (nneg_weaken 70); auto. lia. }
    set (tot := Bminus mode_NE c f) in *.
    destruct (Bltb tot (quote_unit a)) eqn:Ecmp2;
      [apply rejected; repeat split; try apply Hbb; try apply Hqb; apply Hfb|].
    assert (Hq0 : 0 <= B2R (quote_unit a)).
    { destruct Hqu as [_ [->|Hq]]; [lra|]. pose proof (bpow_gt_0 radix2 (-30)). lra. }
    apply fltb_false in Ecmp2; [|exact Ft|apply Hqu].
    assert (Htot : nneg 74 tot).
    { split; auto. split; [lra|]. rewrite Et. apply rnd_le_bpow; [lia|].
      destruct Hc as [_ Hc], Hf as [_ Hf].
      apply Rle_trans with (bpow radix2 70); [lra|]. apply bpow_le; lia. }
    destruct (Bminus_nneg 40 (base_balance a) b ltac:(lia) Hbb Hb40 Ecmp) as [Hd _].
    destruct (Bplus_nneg 74 (quote_balance a) tot ltac:(lia)) as [Hs Es]; auto.
    { apply (nneg_weaken 40); auto. lia. }
    destruct (Bplus_nneg 74 (total_fee a) f ltac:(lia)) as [Hs2 _]; auto.
    { apply (nneg_weaken 40); auto. lia. }
    eexists true, _. split; [reflexivity|]. split; [|split; [discriminate|]].
    2:{ intros _ Hu1 _. right. cbn [set_balances quote_balance].
        apply (Round_ge_unit 75); [lia|exact Hs|exact Hqu|exact Hu1|].
        apply Rle_trans with (B2R tot); [exact Ecmp2|]. rewrite Es.
        rewrite <- (round_generic radix2 fexp32 ZnearestE (B2R tot)) at 1 by apply generic_format_B2R.
        apply rnd_mono. destruct Hqb as [_ Hqb]. lra. }
    repeat split; cbn [set_balances base_balance quote_balance total_fee].
    - eapply (Round_nneg 40); [lia|exact Hd|exact Hbu].
    - eapply (Round_nneg 40); [lia|exact Hd|exact Hbu].
    - eapply (Round_nneg 75); [lia|exact Hs|exact Hqu].
    - eapply (Round_nneg 75); [lia|exact Hs|exact Hqu].
    - eapply (Round_nneg 75); [lia|exact Hs2|exact Hqu].
    - eapply (Round_nneg 75); [lia|exact Hs2|exact Hqu].
  Qed.

  Lemma BuyAtQuote_good fc x p m a :
    ok_settings a -> bounded40 a -> ok_fees fc -> exec_price p -> nneg 40 x -> balance_ok m ->
    good_result a (@BuyAtQuote I fc x p m a).
  Proof.
    intros Hset Hb Hfc Hp Hx Hm. pose proof Hset as [Hbu Hqu Hl Hvr].
    unfold BuyAtQuote. cbn [fltb fleb fofZ ieee].
    destruct zero_finite as [F0 R0]. pose proof Hp as [Fp Hp'].
    pose proof (bpow_gt_0 radix2 (-27)) as H20.
    rewrite (fltb_intro (f32_of_Z 0) p) by (auto; lra). rewrite assert_true. cbn [bind].
    pose proof Hx as [Fx Hx'].
    rewrite (fleb_intro (f32_of_Z 0) x) by (auto; lra). rewrite assert_true. cbn [bind].
    pose proof (Round_nneg 40 x (quote_unit a) ltac:(lia) Hx Hqu) as Hq.
    change (40 + 3)%Z with 43%Z in *.
    set (q := @Round I x (quote_unit a)) in *.
    destruct (Bltb q (quote_unit a) || Bltb (quote_balance a) q); [apply rejected; exact Hb|].
    pose proof (GetFee_nneg 43 a fc q ltac:(lia) Hfc Hqu Hq) as Hf.
    change (43 + 4)%Z with 47%Z in *.
    set (f := @GetFee I a fc q) in *.
    destruct (Bleb q f) eqn:Ecmp; [apply rejected; exact Hb|].
    apply fleb_false in Ecmp; [|apply Hq|apply Hf].
    cbn [fdiv fsub ieee].
    destruct (Bminus_nneg 47 q f ltac:(lia)) as [Hd _]; auto; [|lra|].
    { apply (nneg_weaken 43); auto. lia. }
    destruct (Bdiv_nneg 27 47 (Bminus mode_NE q f) p ltac:(lia) Hd Fp ltac:(apply Hp')) as [Hdiv Ediv].
    change (27 + 47)%Z with 74%Z in *.
    pose proof (fmin_nneg 74 _ m Hdiv Hm) as Hmin.
    pose proof (Floor_nneg 74 _ (base_unit a) ltac:(lia) Hmin Hbu) as Hfl.
    change (74 + 3)%Z with 77%Z in *.
    destruct (Bltb _ (base_unit a)); [apply rejected; exact Hb|].
    apply BuyBase_good; auto.
    pose proof (Floor_le 74 _ (base_unit a) ltac:(lia) Hmin Hbu) as Hle.
    assert (Hmin' : B2R (@fmin I (Bdiv mode_NE (Bminus mode_NE q f) p) m : f32) <= 2 * (B2R (Bminus mode_NE q f) / B2R p)).
    { apply Rle_trans with (B2R (Bdiv mode_NE (Bminus mode_NE q f) p)).
      - unfold fmin. cbn [fltb ieee]. destruct (Bltb m _) eqn:Em; [|lra]. apply fltb_true in Em; [lra|apply Hm|apply Hdiv].
      - rewrite Ediv. apply rnd_le_2. destruct Hd as [_ Hd]. apply Rmult_le_pos; [lra|]. left; apply Rinv_0_lt_compat; lra. }
    assert (Hu20 : 0 <= B2R (base_unit a : f32) <= bpow radix2 20).
    { pose proof (bpow_gt_0 radix2 (-30)). destruct Hbu as [_ [->|Hu]]; [split; [lra|apply bpow_ge_0]|lra]. }
    eapply Rle_trans; [apply Rmult_le_compat_r; [lra|exact Hle]|].
    apply Rle_trans with ((8 * (B2R (Bminus mode_NE q f) / B2R p) + 2 * B2R (base_unit a : f32)) * B2R p).
    { apply Rmult_le_compat_r; lra. }
    replace ((8 * (B2R (Bminus mode_NE q f) / B2R p) + 2 * B2R (base_unit a : f32)) * B2R p)
      with (8 * B2R (Bminus mode_NE q f) + 2 * (B2R (base_unit a : f32) * B2R p)) by (field; lra).
    assert (B2R (base_unit a : f32) * B2R p <= bpow radix2 20 * bpow radix2 27) by (apply Rmult_le_compat; lra).
    rewrite <- bpow_plus in *. assert (bpow radix2 (20 + 27) <= bpow radix2 47) by (apply bpow_le; lia).
    destruct Hd as [_ Hd]. assert (E : bpow radix2 87 = bpow radix2 40 * bpow radix2 47) by (rewrite <- bpow_plus; reflexivity).
    assert (16 <= bpow radix2 40) by (change 16 with (bpow radix2 4); apply bpow_le; lia). rewrite E. nra.
  Qed.

  Lemma SellAtQuote_good fc x p m a :
    ok_settings a -> bounded40 a -> ok_fees fc -> exec_price p -> nneg 40 x -> balance_ok m ->
    good_result a (@SellAtQuote I fc x p m a).
  Proof.
    intros Hset Hb Hfc Hp Hx Hm. pose proof Hset as [Hbu Hqu Hl Hvr].
    unfold SellAtQuote. cbn [fltb fleb fofZ ieee].
    destruct zero_finite as [F0 R0]. pose proof Hp as [Fp Hp'].
    pose proof (bpow_gt_0 radix2 (-27)) as H20.
    rewrite (fltb_intro (f32_of_Z 0) p) by (auto; lra). rewrite assert_true. cbn [bind].
    pose proof Hx as [Fx Hx'].
    rewrite (fleb_intro (f32_of_Z 0) x) by (auto; lra). rewrite assert_true. cbn [bind].
    pose proof (Round_nneg 40 x (quote_unit a) ltac:(lia) Hx Hqu) as Hq.
    change (40 + 3)%Z with 43%Z in *.
    set (q := @Round I x (quote_unit a)) in *.
    destruct (Bltb q (quote_unit a)); [apply rejected; exact Hb|].
    pose proof (GetFee_nneg 43 a fc q ltac:(lia) Hfc Hqu Hq) as Hf.
    change (43 + 4)%Z with 47%Z in *.
    set (f := @GetFee I a fc q) in *.
    cbn [fdiv fadd ieee].
    destruct (Bplus_nneg 47 q f ltac:(lia)) as [Hd _]; auto.
    { apply (nneg_weaken 43); auto. lia. }
    change (47 + 1)%Z with 48%Z in *.
    destruct (Bdiv_nneg 27 48 (Bplus mode_NE q f) p ltac:(lia) Hd Fp ltac:(apply Hp')) as [Hdiv _].
    change (27 + 48)%Z with 75%Z in *.
    pose proof (fmin_nneg 75 _ m Hdiv Hm) as Hmin.
    pose proof (Floor_nneg 75 _ (base_unit a) ltac:(lia) Hmin Hbu) as Hfl.
    change (75 + 3)%Z with 78%Z in *.
    destruct (Bltb _ (base_unit a)); [apply rejected; exact Hb|].
    apply SellBase_good; auto.
  Qed.

  (** Market and stop prices. *)
  Lemma mix_price l x y :
    in_range 0 1 l -> ok_price x -> ok_price y ->
    exec_price (Bplus mode_NE (Bmult mode_NE l x)
                  (Bmult mode_NE (Bminus mode_NE (f32_of_Z 1) l) y)).
  Proof.
    intros [Fl Hl] [Fx Hx] [Fy Hy]. destruct one_finite as [F1 R1].
    pose proof (bpow_gt_0 radix2 (-26)) as H26.
    destruct (Bminus_nneg 0 (f32_of_Z 1) l ltac:(lia)) as [Hm Em].
    { split; auto. rewrite R1. simpl. lra. }
    { split; auto. }
    { rewrite R1. lra. }
    set (m := Bminus mode_NE (f32_of_Z 1) l) in *.
    destruct (Bmult_nneg 0 26 l x ltac:(lia)) as [Hp1 E1].
    { split; auto. } { split; auto. lra. }
    destruct (Bmult_nneg 0 26 m y ltac:(lia) Hm) as [Hp2 E2].
    { split; auto. lra. }
    change (0 + 26)%Z with 26%Z in *.
    destruct (Bplus_nneg 26 _ _ ltac:(lia) Hp1 Hp2) as [Hs Es].
    change (26 + 1)%Z with 27%Z in *.
    split; [apply Hs|]. split; [|apply Hs].
    rewrite Es.
    assert (Hhalf : forall h z, / 2 <= h -> bpow radix2 (-26) <= z -> bpow radix2 (-27) <= rnd (h * z)).
    { intros h z Hh Hz. apply round_ge_generic; try exact _; [apply format_bpow; lia|].
      change (-27)%Z with (-1 + -26)%Z. rewrite bpow_plus. change (bpow radix2 (-1)) with (/ 2).
      apply Rmult_le_compat; lra. }
    apply round_ge_generic; try exact _; [apply format_bpow; lia|].
    destruct (Rle_dec (/ 2) (B2R l)) as [L|L].
    - rewrite E1. destruct Hp2 as [_ Hp2]. pose proof (Hhalf (B2R l) (B2R x) L ltac:(lra)). lra.
    - assert (Hm2 : / 2 <= B2R m).
      { rewrite Em, R1. change (/ 2) with (bpow radix2 (-1)).
        apply round_ge_generic; try exact _; [apply format_bpow; lia|].
        change (bpow radix2 (-1)) with (/ 2). lra. }
      rewrite E2. destruct Hp1 as [_ Hp1]. pose proof (Hhalf (B2R m) (B2R y) Hm2 ltac:(lra)). lra.
  Qed.

  Lemma fmax_price (x y : @flt I) : ok_price x -> ok_price y -> ok_price (@fmax I x y).
  Proof. unfold fmax. destruct (fltb x y); auto. Qed.
  Lemma fmin_price (x y : @flt I) : ok_price x -> ok_price y -> ok_price (@fmin I x y).
  Proof. unfold fmin. destruct (fltb y x); auto. Qed.

  Lemma price_exec x : ok_price x -> exec_price x.
  Proof.
    intros [F [H1 H2]]. split; auto. split.
    - eapply Rle_trans; [|exact H1]. apply bpow_le; lia.
    - eapply Rle_trans; [exact H2|]. apply bpow_le; lia.
  Qed.

  Lemma MaxBase_ok (a : @account I) t : ok_settings a -> ok_tick t -> balance_ok (@GetMaxBaseAmount I a t).
  Proof.
    intros [Hbu Hqu Hl Hvr] Ht. unfold GetMaxBaseAmount. destruct (fltb _ _).
    - eapply nneg_ok, (Floor_nneg 40); [lia| |exact Hbu]. cbn.
      destruct (Bmult_nneg 0 40 (max_volume_ratio a) (volume t) ltac:(lia)) as [H _]; auto.
      apply range_nneg, Ht.
    - split; [reflexivity|]. cbn [fmaxval ieee].
      apply Rlt_le. apply (F2R_gt_0 radix2). reflexivity.
  Qed.

  Lemma positive_num (x : @flt I) : is_finite (x : f32) = true -> 0 < B2R (x : f32) -> @positive I x.
  Proof.
    intros F H. destruct zero_finite as [F0 R0].
    apply (fltb_intro (f32_of_Z 0) x); auto; rewrite R0; exact H.
  Qed.

  Lemma positive_price (x : @flt I) : ok_price x -> @positive I x.
  Proof.
    intros [F H]. apply positive_num; auto. pose proof (bpow_gt_0 radix2 (-26)). lra.
  Qed.

  Lemma nonneg_true k (x : @flt I) : nneg k x -> @fleb I (fofZ 0) x = true.
  Proof.
    intros [F H]. destruct zero_finite as [F0 R0]. apply (fleb_intro (f32_of_Z 0) x); auto. lra.
  Qed.

  Lemma ExecuteOrder_good c o t a :
    ok_config c -> ok_settings a -> bounded40 a -> ok_tick t -> ok_order o ->
    good_result a (@ExecuteOrder I c o t a).
  Proof.
    intros [Hc1 Hc2 Hc3] Hset Hb Ht [ty sd p am Hty Hsd Ham Hx Hpr].
    assert (Hcase : exists x, (am = @BaseAmount I x /\ nneg 60 x \/ am = @QuoteAmount I x /\ nneg 40 x) /\ nneg 60 x /\ 0 < B2R (x : f32)).
    { destruct am as [|x|x]; [destruct Hx| |]; destruct Hx as [Hox Hpos]; apply range_nneg in Hox; exists x.
      - auto.
      - split; [auto|]. split; [apply (nneg_weaken 40); auto; lia|exact Hpos]. }
    clear Hx. destruct Hcase as (x & Hx & Hn60 & Hpos).
    assert (Hn77 : nneg 77 x) by (apply (nneg_weaken 60); auto; lia).
    assert (Hn78 : nneg 78 x) by (apply (nneg_weaken 60); auto; lia).
    pose proof (positive_num x ltac:(apply Hn60) Hpos) as Hpx.
    pose proof (nonneg_true _ _ Hn60) as Hge.
    assert (Hpam : @positive_amount I am).
    { destruct Hx as [[-> _]|[-> _]]; exact Hpx. }
    assert (Hxp : forall y p, nneg 60 y -> exec_price p -> B2R y * B2R p <= bpow radix2 87).
    { intros y p' [_ Hy] [_ Hp']. change 87%Z with (60 + 27)%Z. rewrite bpow_plus. pose proof (bpow_gt_0 radix2 (-27)).
      apply Rmult_le_compat; lra. }
    assert (Hmax : balance_ok (@fmaxval I)).
    { split; [reflexivity|]. apply Rlt_le, (F2R_gt_0 radix2). reflexivity. }
    pose proof (MaxBase_ok a t Hset Ht) as Hcap.
    pose proof Ht as [Ho Hh Hl Hcl Hv _ _]. pose proof (os_liquidity _ Hset) as Hliq.
    assert (HMB : exec_price (@GetMarketBuyPrice I a t)) by (apply mix_price; auto).
    assert (HMS : exec_price (@GetMarketSellPrice I a t)) by (apply mix_price; auto).
    assert (Hmin60 : nneg 60 (@fmin I x (@GetMaxBaseAmount I a t))) by (apply fmin_nneg; auto).
    assert (Hmin77 : nneg 77 (@fmin I x (@GetMaxBaseAmount I a t))) by (apply fmin_nneg; auto).
    assert (Hmin78 : nneg 78 (@fmin I x (@GetMaxBaseAmount I a t))) by (apply fmin_nneg; auto).
    assert (Hpriced : ty <> MARKET ->
       order_is o ty sd am p /\ @positive I p /\ exec_price p /\
       exec_price (@GetStopBuyPrice I a t p) /\ exec_price (@GetStopSellPrice I a t p)).
    { intros Hne. destruct Hpr as [Hm|[Hp Hpp]]; [contradiction|].
      pose proof (positive_price p Hpp) as Hpp'.
      split; [apply order_is_priced; auto|]. split; [exact Hpp'|]. split; [apply price_exec; exact Hpp|].
      split; apply mix_price; auto using fmax_price, fmin_price. }
    destruct ty.
    - assert (Hd : order_is o MARKET sd am x) by (apply order_is_market; auto).
      apply (dispatch c o t a) in Hd.
      destruct sd; destruct Hx as [[Hx Hk]|[Hx Hk]]; rewrite Hx in Hd; cbn [operation] in Hd;
        injection Hd as <-;
        [apply BuyBase_good|apply BuyAtQuote_good|apply SellBase_good|apply SellAtQuote_good]; auto.
    - destruct (Hpriced ltac:(discriminate)) as (Hd & Hpp & Hep & HSB & HSS).
      apply (dispatch c o t a) in Hd.
      destruct sd; destruct Hx as [[Hx Hk]|[Hx Hk]]; rewrite Hx in Hd; cbn [operation] in Hd;
        injection Hd as <-; unfold StopBuy, StopBuyAtQuote, StopSell, StopSellAtQuote;
        rewrite Hpp, assert_true; cbn [bind]; rewrite Hge, assert_true; cbn [bind];
        (destruct (fltb _ _); [apply rejected; exact Hb|]);
        [apply BuyBase_good|apply BuyAtQuote_good|apply SellBase_good|apply SellAtQuote_good]; auto.
    - destruct (Hpriced ltac:(discriminate)) as (Hd & Hpp & Hep & HSB & HSS).
      apply (dispatch c o t a) in Hd.
      destruct sd; destruct Hx as [[Hx Hk]|[Hx Hk]]; rewrite Hx in Hd; cbn [operation] in Hd;
        injection Hd as <-; unfold LimitBuy, LimitBuyAtQuote, LimitSell, LimitSellAtQuote;
        rewrite Hpp, assert_true; cbn [bind]; rewrite Hge, assert_true; cbn [bind];
        (destruct (fltb _ _); [apply rejected; exact Hb|]);
        [apply BuyBase_good|apply BuyAtQuote_good|apply SellBase_good|apply SellAtQuote_good]; auto.
  Qed.

  Lemma limit40_val : is_finite limit40 = true /\ B2R limit40 = bpow radix2 40.
  Proof.
    unfold limit40, f32_of_Z.
    pose proof (binary_normalize_correct 24 128 _ _ mode_NE (2 ^ 40) 0 false) as H. cbv zeta in H.
    assert (HF : F2R (Float radix2 (2 ^ 40) 0) = bpow radix2 40).
    { unfold F2R. cbn -[IZR bpow]. rewrite Rmult_1_r. reflexivity. }
    rewrite HF in H. cbn [round_mode] in H.
    rewrite (round_generic radix2 fexp32 ZnearestE (bpow radix2 40)) in H
      by (apply format_bpow; lia).
    rewrite Rlt_bool_true in H.
    - destruct H as (H1 & H2 & _). split; auto.
    - rewrite Rabs_pos_eq by (apply bpow_ge_0). apply bpow_lt. lia.
  Qed.

  Lemma bounded_of (a : @account I) : balances_ok a -> not_exceeded a -> bounded40 a.
  Proof.
    intros (H1 & H2 & H3) (N1 & N2 & N3). destruct limit40_val as [F L].
    repeat split; try apply H1; try apply H2; try apply H3; rewrite <- L;
      apply fltb_false; auto; try apply H1; try apply H2; try apply H3.
  Qed.

  Lemma ok_settings_same (a a' : @account I) : same_settings a a' -> ok_settings a -> ok_settings a'.
  Proof. intros (E1 & E2 & E3 & E4) [H1 H2 H3 H4]. split; congruence. Qed.

  Lemma exec_all_good (c : @account_config I) l (a : @account I) :
    ok_config c -> ok_settings a -> balances_ok a ->
    Forall (fun ot => ok_order (fst ot) /\ ok_tick (snd ot)) l ->
    (forall l1 l2 a1, l = l1 ++ l2 -> l2 <> [] ->
       exec_all (@ExecuteOrder I c) a l1 = Done a1 -> not_exceeded a1) ->
    exists a', exec_all (@ExecuteOrder I c) a l = Done a' /\ balances_ok a'.
  Proof.
    intros Hc. revert a. induction l as [|[o t] l IH]; intros a Hs Hb Hl Hne.
    - exists a. split; [reflexivity|exact Hb].
    - inversion Hl as [|? ? [Ho Ht] Hl']; subst. cbn [fst snd] in *.
      assert (N0 : not_exceeded a) by (apply (Hne [] ((o, t) :: l)); [reflexivity|discriminate|reflexivity]).
      destruct (ExecuteOrder_good c o t a Hc Hs (bounded_of a Hb N0) Ht Ho) as (ok & a1 & E1 & Hb1 & _).
      destruct (ExecuteOrder_all c o t a ok a1 E1) as [_ Hss].
      destruct (IH a1) as (a' & E' & Hb'); auto.
      + apply (ok_settings_same a); auto.
      + intros l1 l2 a2 -> Hn2 E2. apply (Hne ((o, t) :: l1) l2); auto.
        unfold exec_all in *. cbn [foldM fst snd]. rewrite E1. cbn [bind snd]. exact E2.
      + exists a'. split; auto. unfold exec_all in *. cbn [foldM fst snd]. rewrite E1. cbn [bind snd]. exact E'.
  Qed.

  Lemma ok_unit_sign u : ok_unit u -> is_finite u = true /\ 0 <= B2R u.
  Proof. intros [F [->|H]]; split; auto; try lra. pose proof (bpow_gt_0 radix2 (-30)). lra. Qed.

  Lemma ExecuteOrder_whole c o t (a : @account I) ok a' :
    ok_settings a -> @ExecuteOrder I c o t a = Done (ok, a') -> balances_ok a' ->
    float_whole a -> float_whole a'.
  Proof.
    intros [Hbu Hqu _ _] H (Hb & Hq & Hf) Hw. destruct ok.
    - destruct (ExecuteOrder_rounds c o t a a' H) as (Eb & Eq & Ef & (Eu1 & Eu2 & _)).
      destruct Eb as [x Eb], Eq as [y Eq], Ef as [z Ef].
      destruct (ok_unit_sign _ Hbu), (ok_unit_sign _ Hqu).
      destruct Hb as [Hb _], Hq as [Hq _], Hf as [Hf _].
      unfold float_whole. rewrite Eu1, Eu2, Eb, Eq, Ef in *. repeat split; apply Round_whole_float; auto.
    - destruct (ExecuteOrder_all c o t a false a' H) as [E _]. rewrite (E eq_refl). exact Hw.
  Qed.

  Lemma exec_all_whole (c : @account_config I) l (a : @account I) a' :
    ok_config c -> ok_settings a -> balances_ok a ->
    Forall (fun ot => ok_order (fst ot) /\ ok_tick (snd ot)) l ->
    (forall l1 l2 a1, l = l1 ++ l2 -> l2 <> [] ->
       exec_all (@ExecuteOrder I c) a l1 = Done a1 -> not_exceeded a1) ->
    exec_all (@ExecuteOrder I c) a l = Done a' -> float_whole a -> float_whole a'.
  Proof.
    intros Hc. revert a. induction l as [|[o t] l IH]; intros a Hs Hb Hl Hne H Hw.
    - injection H as <-. exact Hw.
    - inversion Hl as [|? ? [Ho Ht] Hl']; subst. cbn [fst snd] in *.
      assert (N0 : not_exceeded a) by (apply (Hne [] ((o, t) :: l)); [reflexivity|discriminate|reflexivity]).
      destruct (ExecuteOrder_good c o t a Hc Hs (bounded_of a Hb N0) Ht Ho) as (ok & a1 & E1 & Hb1 & _).
      destruct (ExecuteOrder_all c o t a ok a1 E1) as [_ Hss].
      unfold exec_all in H. cbn [foldM fst snd] in H. rewrite E1 in H. cbn [bind snd] in H.
      apply (IH a1); auto.
      + apply (ok_settings_same a); auto.
      + intros l1 l2 a2 -> Hn2 E2. apply (Hne ((o, t) :: l1) l2); auto.
        unfold exec_all in *. cbn [foldM fst snd]. rewrite E1. cbn [bind snd]. exact E2.
      + apply (ExecuteOrder_whole c o t a ok a1); auto.
  Qed.
End IEEE.
