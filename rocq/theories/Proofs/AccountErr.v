(** Rounding errors of the account's operations. *)
From Coq Require Import Reals ZArith Bool List Lra Lia.
From Flocq Require Import Core BinarySingleNaN.
From Verif.Model Require Import Outcome Machine Types Account MachineIEEE.
From Verif.Spec Require Import AccountSpec AccountIEEESpec OrderSpec SetupSpec FloatTradeSpec.
From Verif.Proofs Require Import Base FloatLemmas FloatErr AccountAny AccountIEEE.
Import ListNotations.
Local Open Scope R_scope.

Definition eps : R := bpow radix2 (-24).
Definition eta : R := bpow radix2 (-150).
Lemma eps_val : eps = / 16777216.
Proof. reflexivity. Qed.
Lemma eta_pos : 0 < eta.
Proof. apply bpow_gt_0. Qed.
Lemma eta_unit u : bpow radix2 (-30) <= u -> eta <= u * eps * / 16777216.
Proof.
  intros H. apply Rle_trans with (bpow radix2 (-30) * eps * / 16777216).
  - change (/ 16777216) with (bpow radix2 (-24)). unfold eps, eta. rewrite <- !bpow_plus. apply bpow_le. lia.
  - rewrite !Rmult_assoc. apply Rmult_le_compat_r; [|exact H]. rewrite eps_val. lra.
Qed.
Lemma eta_100 : eta * 1048576 <= bpow radix2 (-100).
Proof. change 1048576 with (bpow radix2 20). unfold eta. rewrite <- bpow_plus. apply bpow_le. lia. Qed.
Lemma tol_val m : tol m = 16 * eps * m + bpow radix2 (-100).
Proof. unfold tol, eps. change (bpow radix2 (-20)) with (bpow radix2 (4 + -24)). rewrite bpow_plus. change (bpow radix2 4) with 16. lra. Qed.

(** The error of one rounding of a non-negative number. *)
Lemma rnd_err_le x : 0 <= x -> x - x * eps - eta <= rnd x <= x + x * eps + eta.
Proof.
  intros H. destruct (rnd_err x) as (d & e & E & Hd & He). rewrite E.
  apply Rabs_le_inv in Hd. apply Rabs_le_inv in He. unfold eps, eta. nra.
Qed.
Lemma rnd_err_abs x : Rabs (rnd x - x) <= Rabs x * eps + eta.
Proof.
  destruct (rnd_err x) as (d & e & E & Hd & He). rewrite E.
  replace (x * (1 + d) + e - x) with (x * d + e) by ring.
  eapply Rle_trans; [apply Rabs_triang|]. rewrite Rabs_mult. unfold eps, eta.
  apply Rplus_le_compat; [|exact He]. apply Rmult_le_compat_l; [apply Rabs_pos|exact Hd].
Qed.

(** unit * n, where n is within [lo, hi] of the quotient. *)
Lemma unit_err u x n lo hi :
  bpow radix2 (-30) <= u -> 0 <= x -> 0 <= n -> -1 <= lo -> hi <= 1 ->
  rnd (x / u) + lo <= n <= rnd (x / u) + hi ->
  x + lo * u - 3 * eps * (x + u) <= rnd (u * n) <= x + hi * u + 3 * eps * (x + u).
Proof.
  intros Hu Hx Hn0 Hlo Hhi Hn. pose proof (bpow_gt_0 radix2 (-30)) as P30.
  assert (Hq : 0 <= x / u) by (apply Rmult_le_pos; [lra|]; left; apply Rinv_0_lt_compat; lra).
  pose proof (rnd_err_le _ Hq) as Eq. pose proof (rnd_err_le (u * n) ltac:(apply Rmult_le_pos; lra)) as En.
  set (q := rnd (x / u)) in *. pose proof eta_pos as He0. pose proof (eta_unit u Hu) as Heu.
  assert (Hxu : u * (x / u) = x) by (field; lra).
  assert (Huq : x - x * eps - u * eta <= u * q <= x + x * eps + u * eta).
  { split.
    - apply Rle_trans with (u * (x / u - x / u * eps - eta)); [|apply Rmult_le_compat_l; lra].
      right. rewrite !Rmult_minus_distr_l, <- Rmult_assoc, Hxu. reflexivity.
    - apply Rle_trans with (u * (x / u + x / u * eps + eta)); [apply Rmult_le_compat_l; lra|].
      right. rewrite !Rmult_plus_distr_l, <- Rmult_assoc, Hxu. reflexivity. }
  assert (Hun : u * q + lo * u <= u * n <= u * q + hi * u).
  { split; [apply Rle_trans with (u * (q + lo))|apply Rle_trans with (u * (q + hi))]; try lra; apply Rmult_le_compat_l; lra. }
  assert (Hetasmall : eta <= / 16777216).
  { unfold eta. change (/ 16777216) with (bpow radix2 (-24)). apply bpow_le. lia. }
  assert (Hue : u * eta <= u * eps * / 8).
  { rewrite eps_val. unfold eta. rewrite Rmult_assoc. apply Rmult_le_compat_l; [lra|].
    change (/ 16777216) with (bpow radix2 (-24)). change (/ 8) with (bpow radix2 (-3)). rewrite <- bpow_plus. apply bpow_le. lia. }
  assert (Hloue : - u <= lo * u) by nra. assert (Hhiue : hi * u <= u) by nra.
  rewrite eps_val in *. lra.
Qed.

Lemma floor_bounds x : x - 1 <= IZR (round_mode mode_DN x) <= x + 0.
Proof. cbn [round_mode]. pose proof (Zfloor_lb x). pose proof (Zfloor_ub x). lra. Qed.
Lemma ceil_bounds x : x + 0 <= IZR (round_mode mode_UP x) <= x + 1.
Proof.
  cbn [round_mode]. pose proof (Zceil_ub x). split; [lra|]. unfold Zceil. rewrite opp_IZR. pose proof (Zfloor_ub (- x)). lra.
Qed.
Lemma near_bounds x : x + - / 2 <= IZR (round_mode mode_NA x) <= x + / 2.
Proof.
  cbn [round_mode]. pose proof (Znearest_half (Zle_bool 0) x) as H. change (ZnearestA x) with (Znearest (Zle_bool 0) x).
  apply Rabs_le_inv in H. lra.
Qed.
Lemma round_mode_nneg md x : 0 <= x -> 0 <= IZR (round_mode md x).
Proof.
  intros H. apply (IZR_le 0). rewrite <- (@Zrnd_IZR (round_mode md) _ 0). apply (@Zrnd_le (round_mode md) _). exact H.
Qed.

Section Err.
  Context {lm : libm} {as_ : bool}.
  Local Notation I := (ieee lm as_).

  Lemma rounding_err (rd : f32 -> f32) md k x u lo hi :
    rd = Bnearbyint md -> (forall z, z + lo <= IZR (round_mode md z) <= z + hi) -> -1 <= lo <= 0 -> 0 <= hi <= 1 ->
    (20 <= k <= 97)%Z -> nneg k x -> ok_unit u ->
    let y := B2R (if Bltb (f32_of_Z 0) u then Bmult mode_NE u (rd (Bdiv mode_NE x u)) else x) in
    B2R x + lo * B2R u - 3 * eps * (B2R x + B2R u) <= y <= B2R x + hi * B2R u + 3 * eps * (B2R x + B2R u).
  Proof.
    intros -> Hmd Hlo Hhi Hk Hx [Fu Hu]. destruct (@zero_finite) as [F0 R0].
    destruct (Bltb (f32_of_Z 0) u) eqn:E; cbv zeta.
    - apply fltb_true in E; auto. rewrite R0 in E. destruct Hu as [Hu|Hu]; [lra|].
      destruct (unit_round_nneg md k x u Hk Hx Fu Hu) as [_ ->]. destruct Hx as [_ Hx].
      apply unit_err; try lra; [|apply Hmd]. apply round_mode_nneg, rnd_nonneg.
      apply Rmult_le_pos; [lra|]. left; apply Rinv_0_lt_compat; lra.
    - apply fltb_false in E; auto. rewrite R0 in E. pose proof (bpow_gt_0 radix2 (-30)). destruct Hx as [_ Hx].
      assert (U0 : B2R u = 0) by (destruct Hu; lra). rewrite U0, eps_val. lra.
  Qed.

  Lemma Round_err k (x u : @flt I) : (20 <= k <= 97)%Z -> nneg k x -> ok_unit u ->
    let X := B2R (x : f32) in let U := B2R (u : f32) in
    X - / 2 * U - 3 * eps * (X + U) <= B2R (@Round I x u : f32) <= X + / 2 * U + 3 * eps * (X + U).
  Proof.
    intros. pose proof (rounding_err (Bnearbyint mode_NA) mode_NA k x u (- / 2) (/ 2) eq_refl near_bounds ltac:(lra) ltac:(lra) H H0 H1) as K.
    cbv zeta in K. subst X U. unfold Round. cbn [fltb fofZ ieee fmul fround fdiv]. change (@flt I) with f32 in *.
    destruct K as [K1 K2]. split; [eapply Rle_trans; [|exact K1]|eapply Rle_trans; [exact K2|]]; lra.
  Qed.
  Lemma Ceil_err k (x u : @flt I) : (20 <= k <= 97)%Z -> nneg k x -> ok_unit u ->
    let X := B2R (x : f32) in let U := B2R (u : f32) in
    X - 3 * eps * (X + U) <= B2R (@Ceil I x u : f32) <= X + U + 3 * eps * (X + U).
  Proof.
    intros. pose proof (rounding_err (Bnearbyint mode_UP) mode_UP k x u 0 1 eq_refl ceil_bounds ltac:(lra) ltac:(lra) H H0 H1) as K.
    cbv zeta in K. subst X U. unfold Ceil. cbn [fltb fofZ ieee fmul fceil fdiv]. change (@flt I) with f32 in *.
    destruct K as [K1 K2]. split; [eapply Rle_trans; [|exact K1]|eapply Rle_trans; [exact K2|]]; lra.
  Qed.
  Lemma Floor_err k (x u : @flt I) : (20 <= k <= 97)%Z -> nneg k x -> ok_unit u ->
    let X := B2R (x : f32) in let U := B2R (u : f32) in
    X - U - 3 * eps * (X + U) <= B2R (@Floor I x u : f32) <= X + 3 * eps * (X + U).
  Proof.
    intros. pose proof (rounding_err (Bnearbyint mode_DN) mode_DN k x u (- 1) 0 eq_refl floor_bounds ltac:(lra) ltac:(lra) H H0 H1) as K.
    cbv zeta in K. subst X U. unfold Floor. cbn [fltb fofZ ieee fmul ffloor fdiv]. change (@flt I) with f32 in *.
    destruct K as [K1 K2]. split; [eapply Rle_trans; [|exact K1]|eapply Rle_trans; [exact K2|]]; lra.
  Qed.

  Lemma fmax_val (x y : @flt I) : is_finite (x : f32) = true -> is_finite (y : f32) = true ->
    B2R (@fmax I x y : f32) = Rmax (B2R (x : f32)) (B2R (y : f32)).
  Proof.
    intros Fx Fy. unfold fmax. cbn [fltb ieee]. destruct (Bltb x y) eqn:E.
    - apply fltb_true in E; auto. rewrite Rmax_right; [reflexivity|]. apply Rlt_le; exact E.
    - apply fltb_false in E; auto. rewrite Rmax_left; [reflexivity|exact E].
  Qed.
  Lemma fmin_val (x y : @flt I) : is_finite (x : f32) = true -> is_finite (y : f32) = true ->
    B2R (@fmin I x y : f32) = Rmin (B2R (x : f32)) (B2R (y : f32)).
  Proof.
    intros Fx Fy. unfold fmin. cbn [fltb ieee]. destruct (Bltb y x) eqn:E.
    - apply fltb_true in E; auto. rewrite Rmin_right; [reflexivity|]. apply Rlt_le; exact E.
    - apply fltb_false in E; auto. rewrite Rmin_left; [reflexivity|exact E].
  Qed.

  Lemma Rmax_near a b c d : 0 <= a -> 0 <= b -> b - d <= c <= b + d -> 0 <= d -> Rmax a b - d <= Rmax a c <= Rmax a b + d.
  Proof. intros. unfold Rmax. destruct (Rle_dec a b), (Rle_dec a c); lra. Qed.

  Lemma GetFee_err k (a : @account I) fc (x : @flt I) :
    (22 <= k <= 96)%Z -> ok_fees fc -> ok_unit (quote_unit a) -> nneg k x ->
    let Z := fee_exact fc (B2R (x : f32)) in let U := B2R (quote_unit a : f32) in
    Z - 6 * eps * (Z + U) - 5 * eta <= B2R (@GetFee I a fc x : f32) <= Z + U + 6 * eps * (Z + U) + 5 * eta.
  Proof.
    intros Hk [Hr Hf Hm] Hu Hx. cbv zeta. unfold GetFee. cbn [fadd fmul ieee].
    assert (Hr' : nneg 0 (relative_fee fc)) by (apply range_nneg; exact Hr).
    destruct (Bmult_nneg k 0 x (relative_fee fc) ltac:(lia) Hx Hr') as [Hp1 Ep1]. rewrite Z.add_0_r in *.
    assert (Hf' : nneg k (fixed_fee fc)) by (apply (nneg_weaken 20); [lia|apply range_nneg; exact Hf]).
    destruct (Bplus_nneg k (fixed_fee fc) _ ltac:(lia) Hf' Hp1) as [Hs1 Es1].
    assert (Hm' : nneg (k + 1) (minimum_fee fc)) by (apply (nneg_weaken 20); [lia|apply range_nneg; exact Hm]).
    pose proof (fmax_nneg (lm := lm) (as_ := as_) (k + 1) _ _ Hm' Hs1) as Hz.
    pose proof (Ceil_err (k + 1) _ (quote_unit a) ltac:(lia) Hz Hu) as K. cbv zeta in K.
    rewrite (fmax_val (minimum_fee fc) _) in K by (first [apply Hm'|apply Hs1]).
    change (@flt I) with f32 in *. rewrite Es1, Ep1 in K.
    set (X := B2R x) in *. set (R_ := B2R (relative_fee fc)) in *. set (Fx := B2R (fixed_fee fc)) in *. set (Mn := B2R (minimum_fee fc)) in *.
    assert (PX : 0 <= X) by apply Hx. assert (PR : 0 <= R_) by apply Hr'. assert (PF : 0 <= Fx) by apply Hf'. assert (PM : 0 <= Mn) by apply Hm'.
    assert (PXR : 0 <= X * R_) by (apply Rmult_le_pos; assumption).
    pose proof (rnd_err_le _ PXR) as E1. pose proof (rnd_nonneg _ PXR) as P1. set (m := rnd (X * R_)) in *.
    pose proof (rnd_err_le (Fx + m) ltac:(lra)) as E2. set (s := rnd (Fx + m)) in *.
    unfold fee_exact. fold X R_ Fx Mn. rewrite (Rmult_comm R_ X). set (S_ := Fx + X * R_) in *.
    assert (PS : 0 <= S_) by (unfold S_; lra). pose proof eta_pos as He.
    assert (Hd : S_ - (S_ * (2 * eps + eps * eps) + 3 * eta) <= s <= S_ + (S_ * (2 * eps + eps * eps) + 3 * eta)).
    { rewrite eps_val in *. unfold S_ in *. lra. }
    assert (Hd0 : 0 <= S_ * (2 * eps + eps * eps) + 3 * eta) by (rewrite eps_val; lra).
    pose proof (Rmax_near Mn S_ s _ PM PS Hd Hd0) as Hmx. pose proof (Rmax_r Mn S_) as HS.
    set (Z := Rmax Mn S_) in *. set (z := Rmax Mn s) in *.
    assert (PU : 0 <= B2R (quote_unit a)) by (apply (proj2 (ok_unit_sign _ Hu))). set (U := B2R (quote_unit a)) in *.
    destruct K as [K1 K2]. split; [eapply Rle_trans; [|exact K1]|eapply Rle_trans; [exact K2|]]; rewrite eps_val in *; lra.
  Qed.

  (** The parts of an accepted BuyBase / SellBase. *)
  Lemma BuyBase_parts fc x p a a' :
    ok_settings a -> bounded40 a -> ok_fees fc -> exec_price p -> nneg 77 x -> B2R x * B2R p <= bpow radix2 87 ->
    @BuyBase I fc x p a = Done (true, a') ->
    let b := @Round I x (base_unit a) in
    exists q f tot : f32,
      q = @Ceil I (Bmult mode_NE b p) (quote_unit a) /\ f = @GetFee I a fc q /\
      nneg 80 b /\ nneg 90 (Bmult mode_NE b p) /\ B2R (Bmult mode_NE b p) = rnd (B2R b * B2R p) /\
      nneg 93 q /\ nneg 97 f /\
      B2R tot = rnd (B2R q + B2R f) /\ 0 <= B2R tot <= B2R (quote_balance a : f32) /\
      B2R (base_unit a : f32) <= B2R b /\
      (exists s1, nneg 81 s1 /\ B2R s1 = rnd (B2R (base_balance a : f32) + B2R b) /\ base_balance a' = @Round I s1 (base_unit a)) /\
      (exists s2, nneg 40 s2 /\ B2R s2 = rnd (B2R (quote_balance a : f32) - B2R tot) /\ quote_balance a' = @Round I s2 (quote_unit a)) /\
      (exists s3, nneg 42 s3 /\ B2R s3 = rnd (B2R (total_fee a : f32) + B2R f) /\ total_fee a' = @Round I s3 (quote_unit a)).
  Proof.
    intros [Hbu Hqu Hl Hvr] Hb Hfc Hp Hx Hxp. unfold BuyBase. cbn [fltb fleb fofZ ieee].
    destruct (@zero_finite) as [F0 R0]. destruct Hp as [Fp Hp].
    pose proof (bpow_gt_0 radix2 (-27)) as H20.
    rewrite (fltb_intro (f32_of_Z 0) p) by (auto; lra). rewrite assert_true. cbn [bind].
    pose proof Hx as [Fx Hx'].
    rewrite (fleb_intro (f32_of_Z 0) x) by (auto; lra). rewrite assert_true. cbn [bind].
    pose proof (Round_nneg 77 x (base_unit a) ltac:(lia) Hx Hbu) as Hb1.
    pose proof (Round_le 77 x (base_unit a) ltac:(lia) Hx Hbu) as Hb2.
    change (77 + 3)%Z with 80%Z in *.
    cbv zeta. set (b := @Round I x (base_unit a)) in *.
    destruct (Bltb b (base_unit a)) eqn:Eb; [discriminate|].
    apply fltb_false in Eb; [|apply Hb1|apply Hbu].
    cbn [fmul ieee].
    assert (Hle90 : B2R b * B2R p <= bpow radix2 90).
    { assert (Hu20 : B2R (base_unit a : f32) <= bpow radix2 20).
      { destruct Hbu as [_ [->|Hu]]; [apply bpow_ge_0|apply Hu]. }
      apply Rle_trans with ((4 * B2R (x : f32) + 2 * B2R (base_unit a : f32)) * B2R p).
      + apply Rmult_le_compat_r; [lra|exact Hb2].
      + assert (B2R (base_unit a : f32) * B2R p <= bpow radix2 20 * bpow radix2 27).
        { apply Rmult_le_compat; try lra. destruct Hbu as [_ [->|Hu]]; [lra|]. pose proof (bpow_gt_0 radix2 (-30)). lra. }
        rewrite <- bpow_plus in *. assert (bpow radix2 (20 + 27) <= bpow radix2 87) by (apply bpow_le; lia).
        replace 90%Z with (87 + 3)%Z by ring. rewrite (bpow_plus radix2 87 3). change (bpow radix2 3) with 8. nra. }
    assert (Hbp : nneg 90 (Bmult mode_NE b p)).
    { apply (Bmult_nneg_le 90 80 27); [lia|exact Hb1|split; [exact Fp|lra]|exact Hle90]. }
    assert (Ebp : B2R (Bmult mode_NE b p) = rnd (B2R b * B2R p)).
    { assert (H0 : 0 <= B2R b * B2R p) by (apply Rmult_le_pos; [apply Hb1|lra]).
      pose proof (Bmult_correct 24 128 _ _ mode_NE b p) as H. cbn [round_mode] in H.
      rewrite (no_overflow _ 90) in H by (try lia; rewrite Rabs_pos_eq; lra). apply H. }
    pose proof (Ceil_nneg 90 _ (quote_unit a) ltac:(lia) Hbp Hqu) as Hc.
    change (90 + 3)%Z with 93%Z in *.
    set (c := @Ceil I (Bmult mode_NE b p) (quote_unit a)) in *.
    pose proof (GetFee_nneg 93 a fc c ltac:(lia) Hfc Hqu Hc) as Hf.
    change (93 + 4)%Z with 97%Z in *.
    set (f := @GetFee I a fc c) in *. cbn [fadd fsub ieee].
    destruct (Bplus_nneg 97 c f ltac:(lia)) as [Ht Et]; auto.
    { apply (nneg_weaken 93); auto. lia. }
    set (tot := Bplus mode_NE c f) in *.
    destruct Hb as (Hbb & Hqb & Hfb).
    destruct (Bltb (quote_balance a) tot) eqn:Ecmp; [discriminate|].
    apply fltb_false in Ecmp; [|apply Hqb|apply Ht].
    assert (Ht40 : nneg 40 tot).
    { destruct Ht as [Ft Ht]. split; auto. destruct Hqb as [_ Hqb]. lra. }
    destruct (Bminus_nneg 40 (quote_balance a) tot ltac:(lia) Hqb Ht40 Ecmp) as [Hd Ed].
    assert (Hf41 : nneg 41 f).
    { destruct Hf as [Ff Hf]. split; auto. split; [lra|].
      assert (B2R f <= B2R tot).
      { rewrite Et. rewrite <- (round_generic radix2 fexp32 ZnearestE (B2R f)) at 1.
        - apply rnd_mono. destruct Hc. lra.
        - apply generic_format_B2R. }
      apply Rle_trans with (B2R tot); auto. apply Rle_trans with (bpow radix2 40); [apply Ht40|].
      apply bpow_le; lia. }
    destruct (Bplus_nneg 80 (base_balance a) b ltac:(lia)) as [Hs Es]; auto.
    { apply (nneg_weaken 40); auto. lia. }
    destruct (Bplus_nneg 41 (total_fee a) f ltac:(lia)) as [Hs2 Es2]; auto.
    { apply (nneg_weaken 40); auto. lia. }
    intros HD. injection HD as <-.
    exists c, f, tot. split; [reflexivity|]. split; [reflexivity|]. split; [exact Hb1|]. split; [exact Hbp|]. split; [exact Ebp|].
    split; [exact Hc|]. split; [exact Hf|]. split; [exact Et|]. split; [split; [apply Ht|exact Ecmp]|]. split; [exact Eb|].
    cbn [set_balances base_balance quote_balance total_fee]. repeat split; eauto 10.
  Qed.

  Lemma SellBase_parts fc x p a a' :
    ok_settings a -> bounded40 a -> ok_fees fc -> exec_price p -> nneg 78 x ->
    @SellBase I fc x p a = Done (true, a') ->
    let b := @Round I x (base_unit a) in
    exists q f tot : f32,
      q = @Floor I (Bmult mode_NE b p) (quote_unit a) /\ f = @GetFee I a fc q /\
      nneg 40 b /\ nneg 67 (Bmult mode_NE b p) /\ B2R (Bmult mode_NE b p) = rnd (B2R b * B2R p) /\
      nneg 70 q /\ nneg 74 f /\
      B2R tot = rnd (B2R q - B2R f) /\ B2R (quote_unit a : f32) <= B2R tot /\
      B2R (base_unit a : f32) <= B2R b /\ B2R b <= B2R (base_balance a : f32) /\
      (exists s1, nneg 40 s1 /\ B2R s1 = rnd (B2R (base_balance a : f32) - B2R b) /\ base_balance a' = @Round I s1 (base_unit a)) /\
      (exists s2, nneg 75 s2 /\ B2R s2 = rnd (B2R (quote_balance a : f32) + B2R tot) /\ quote_balance a' = @Round I s2 (quote_unit a)) /\
      (exists s3, nneg 75 s3 /\ B2R s3 = rnd (B2R (total_fee a : f32) + B2R f) /\ total_fee a' = @Round I s3 (quote_unit a)).
  Proof.
    intros [Hbu Hqu Hl Hvr] Hb Hfc Hp Hx. unfold SellBase. cbn [fltb fleb fofZ ieee].
    destruct (@zero_finite) as [F0 R0]. destruct Hp as [Fp Hp].
    pose proof (bpow_gt_0 radix2 (-27)) as H20.
    rewrite (fltb_intro (f32_of_Z 0) p) by (auto; lra). rewrite assert_true. cbn [bind].
    pose proof Hx as [Fx Hx'].
    rewrite (fleb_intro (f32_of_Z 0) x) by (auto; lra). rewrite assert_true. cbn [bind].
    pose proof (Round_nneg 78 x (base_unit a) ltac:(lia) Hx Hbu) as Hb1.
    cbv zeta. set (b := @Round I x (base_unit a)) in *.
    destruct (Bltb b (base_unit a)) eqn:Eb; [discriminate|]. cbn [orb].
    destruct (Bltb (base_balance a) b) eqn:Ecmp; [discriminate|].
    destruct Hb as (Hbb & Hqb & Hfb).
    apply fltb_false in Eb; [|apply Hb1|apply Hbu].
    apply fltb_false in Ecmp; [|apply Hbb|apply Hb1].
    assert (Hb40 : nneg 40 b).
    { destruct Hb1 as [Fb Hb1]. split; auto. destruct Hbb as [_ Hbb]. lra. }
    cbn [fmul ieee].
    destruct (Bmult_nneg 40 27 b p ltac:(lia) Hb40) as [Hbp Ebp].
    { split; [exact Fp|lra]. }
    change (40 + 27)%Z with 67%Z in *.
    pose proof (Floor_nneg 67 _ (quote_unit a) ltac:(lia) Hbp Hqu) as Hc.
    change (67 + 3)%Z with 70%Z in *.
    set (c := @Floor I (Bmult mode_NE b p) (quote_unit a)) in *.
    pose proof (GetFee_nneg 70 a fc c ltac:(lia) Hfc Hqu Hc) as Hf.
    change (70 + 4)%Z with 74%Z in *.
    set (f := @GetFee I a fc c) in *. cbn [fadd fsub ieee].
    destruct (Bminus_finite 74 c f ltac:(lia)) as [Ft Et]; auto.
    { apply (nneg_weaken 70); auto. lia. }
    set (tot := Bminus mode_NE c f) in *.
    destruct (Bltb tot (quote_unit a)) eqn:Ecmp2; [discriminate|].
    assert (Hq0 : 0 <= B2R (quote_unit a)).
    { destruct Hqu as [_ [->|Hq]]; [lra|]. pose proof (bpow_gt_0 radix2 (-30)). lra. }
    apply fltb_false in Ecmp2; [|exact Ft|apply Hqu].
    assert (Htot : nneg 74 tot).
    { split; auto. split; [lra|]. rewrite Et. apply rnd_le_bpow; [lia|].
      destruct Hc as [_ Hc], Hf as [_ Hf].
      apply Rle_trans with (bpow radix2 70); [lra|]. apply bpow_le; lia. }
    destruct (Bminus_nneg 40 (base_balance a) b ltac:(lia) Hbb Hb40 Ecmp) as [Hd Ed].
    destruct (Bplus_nneg 74 (quote_balance a) tot ltac:(lia)) as [Hs Es]; auto.
    { apply (nneg_weaken 40); auto. lia. }
    destruct (Bplus_nneg 74 (total_fee a) f ltac:(lia)) as [Hs2 Es2]; auto.
    { apply (nneg_weaken 40); auto. lia. }
    intros HD. injection HD as <-.
    exists c, f, tot. split; [reflexivity|]. split; [reflexivity|]. split; [exact Hb40|]. split; [exact Hbp|]. split; [exact Ebp|].
    split; [exact Hc|]. split; [exact Hf|]. split; [exact Et|]. split; [exact Ecmp2|]. split; [exact Eb|]. split; [exact Ecmp|].
    cbn [set_balances base_balance quote_balance total_fee]. repeat split; eauto 10.
  Qed.
End Err.
