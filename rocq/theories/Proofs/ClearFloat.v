(** Orders that single precision carries out for sure. *)
From Coq Require Import Reals ZArith Bool List Lra Lia.
From Flocq Require Import Core BinarySingleNaN.
From Verif.Model Require Import Outcome Machine Types Account MachineIEEE.
From Verif.Spec Require Import AccountSpec AccountIEEESpec OrderSpec SetupSpec FloatTradeSpec ClearSpec.
From Verif.Proofs Require Import Base FloatLemmas FloatErr AccountAny AccountIEEE AccountErr AccountBook AccountTrade.
Import ListNotations.
Local Open Scope R_scope.

Section Clear.
  Context {lm : libm} {as_ : bool}.
  Local Notation I := (ieee lm as_).

  Lemma fltb_no (x y : f32) : is_finite x = true -> is_finite y = true -> B2R y <= B2R x -> Bltb x y = false.
  Proof.
    intros Fx Fy H. destruct (Bltb x y) eqn:E; [|reflexivity]. apply fltb_true in E; auto. lra.
  Qed.
  Lemma fleb_no (x y : f32) : is_finite x = true -> is_finite y = true -> B2R y < B2R x -> Bleb x y = false.
  Proof.
    intros Fx Fy H. destruct (Bleb x y) eqn:E; [|reflexivity]. rewrite Bleb_ext in E by (apply finite_num; assumption).
    rewrite !ext_finite in E by assumption. destruct (Rle_bool_spec (B2R x) (B2R y)); [lra|discriminate].
  Qed.

  Lemma rounding_ge (rd : f32 -> f32) md k (x u : f32) : rd = Bnearbyint md -> (20 <= k <= 97)%Z -> nneg k x -> ok_unit u -> B2R u <= B2R x ->
    B2R u <= B2R (if Bltb (f32_of_Z 0) u then Bmult mode_NE u (rd (Bdiv mode_NE x u)) else x).
  Proof.
    intros -> Hk Hx Hu L. destruct (@zero_finite) as [F0 R0]. destruct (Bltb (f32_of_Z 0) u) eqn:E; [|exact L].
    apply fltb_true in E; [|exact F0|apply Hu]. rewrite R0 in E. apply (unit_round_ge md k); auto; [apply Hu|].
    destruct Hu as [_ [Hu|Hu]]; lra.
  Qed.
  Lemma Round_ge k (x u : @flt I) : (20 <= k <= 97)%Z -> nneg k x -> ok_unit u -> B2R (u : f32) <= B2R (x : f32) ->
    B2R (u : f32) <= B2R (@Round I x u : f32).
  Proof. intros. unfold Round. cbn [fltb fofZ ieee fmul fround fdiv]. apply (rounding_ge (Bnearbyint mode_NA) mode_NA k); auto. Qed.
  Lemma Floor_ge k (x u : @flt I) : (20 <= k <= 97)%Z -> nneg k x -> ok_unit u -> B2R (u : f32) <= B2R (x : f32) ->
    B2R (u : f32) <= B2R (@Floor I x u : f32).
  Proof. intros. unfold Floor. cbn [fltb fofZ ieee fmul ffloor fdiv]. apply (rounding_ge (Bnearbyint mode_DN) mode_DN k); auto. Qed.

  (** BuyBase and SellBase. *)
  Lemma BuyBase_executes fc x p a :
    ok_settings a -> bounded40 a -> ok_fees fc -> exec_price p -> nneg 77 x -> B2R x * B2R p <= bpow radix2 87 ->
    B2R (base_unit a : f32) <= B2R x ->
    let b := B2R (@Round I x (base_unit a) : f32) in
    exists q f, about_up (B2R (quote_unit a : f32)) (b * B2R p) q /\ about_up (B2R (quote_unit a : f32)) (fee_exact fc q) f /\
      (q + f <= B2R (quote_balance a : f32) -> exists a', @BuyBase I fc x p a = Done (true, a')).
  Proof.
    intros [Hbu Hqu Hl Hvr] Hb Hfc Hp Hx Hxp Hge. unfold BuyBase. cbn [fltb fleb fofZ ieee].
    destruct (@zero_finite) as [F0 R0]. destruct Hp as [Fp Hp].
    pose proof (bpow_gt_0 radix2 (-27)) as H20.
    rewrite (fltb_intro (f32_of_Z 0) p) by (auto; lra). rewrite assert_true. cbn [bind].
    pose proof Hx as [Fx Hx'].
    rewrite (fleb_intro (f32_of_Z 0) x) by (auto; lra). rewrite assert_true. cbn [bind].
    pose proof (Round_nneg 77 x (base_unit a) ltac:(lia) Hx Hbu) as Hb1.
    pose proof (Round_le 77 x (base_unit a) ltac:(lia) Hx Hbu) as Hb2.
    pose proof (Round_ge 77 x (base_unit a) ltac:(lia) Hx Hbu Hge) as Hb3.
    change (77 + 3)%Z with 80%Z in *.
    cbv zeta. set (b := @Round I x (base_unit a)) in *.
    rewrite (fltb_no b (base_unit a)) by (apply Hb1 || apply Hbu || exact Hb3).
    cbn [fmul ieee].
    assert (Hle90 : B2R b * B2R p <= bpow radix2 90).
    { assert (Hu20 : B2R (base_unit a : f32) <= bpow radix2 20).
      { destruct Hbu as [_ [->|Hu]]; [apply bpow_ge_0|apply Hu]. }
      apply Rle_trans with ((4 * B2R (x : f32) + 2 * B2R (base_unit a : f32)) * B2R p).
      + apply Rmult_le_compat_r; [lra|exact Hb2].
      + assert (B2R (base_unit a : f32) * B2R p <= bpow radix2 20 * bpow radix2 27).
        { apply Rmult_le_compat; try lra. destruct Hbu as [_ [->|Hu]]; [lra|]. pose proof (bpow_gt_0 radix2 (-30)). lra. }
        rewrite <- bpow_plus in *. assert (bpow radix2 (20 + 27) <= bpow radix2 87) by (apply bpow_le; lia).
        replace 90%Z with (87 + 3)%Z by ring. rewrite (bpow_plus radix2 87 3). change (bpow radix2 3) with 8. nra. }
    assert (Hbp : nneg 90 (Bmult mode_NE b p)).
    { apply (Bmult_nneg_le 90 80 27); [lia|exact Hb1|split; [exact Fp|lra]|exact Hle90]. }
    assert (Pbp : 0 <= B2R b * B2R p) by (apply Rmult_le_pos; [apply Hb1|lra]).
    assert (Ebp : B2R (Bmult mode_NE b p) = rnd (B2R b * B2R p)).
    { pose proof (Bmult_correct 24 128 _ _ mode_NE b p) as H. cbn [round_mode] in H.
      rewrite (no_overflow _ 90) in H by (try lia; rewrite Rabs_pos_eq; lra). apply H. }
    pose proof (Ceil_nneg 90 _ (quote_unit a) ltac:(lia) Hbp Hqu) as Hc.
    pose proof (Ceil_err (lm := lm) (as_ := as_) 90 _ (quote_unit a) ltac:(lia) Hbp Hqu) as Kq. cbv zeta in Kq.
    change (90 + 3)%Z with 93%Z in *.
    set (q := @Ceil I (Bmult mode_NE b p) (quote_unit a)) in *.
    pose proof (GetFee_nneg 93 a fc q ltac:(lia) Hfc Hqu Hc) as Hf.
    pose proof (GetFee_err 93 a fc q ltac:(lia) Hfc Hqu Hc) as Kf. cbv zeta in Kf.
    change (93 + 4)%Z with 97%Z in *.
    set (f := @GetFee I a fc q) in *. cbn [fadd fsub ieee].
    destruct (Bplus_nneg 97 q f ltac:(lia)) as [Ht Et]; auto.
    { apply (nneg_weaken 93); auto. lia. }
    set (tot := Bplus mode_NE q f) in *.
    destruct Hb as (Hbb & Hqb & Hfb).
    change (@flt I) with f32 in *.
    exists (B2R q), (B2R f). pose proof eta_pos as He. pose proof eta_100 as H100.
    pose proof (rnd_err_le (B2R b * B2R p) Pbp) as Kbp. rewrite <- Ebp in Kbp.
    pose proof (proj2 (ok_unit_sign _ Hqu)) as PQU.
    split; [|split].
    - unfold about_up. rewrite tol_val. set (X := B2R b * B2R p) in *. rewrite eps_val in *. lra.
    - unfold about_up. rewrite tol_val. assert (0 <= fee_exact fc (B2R q)).
      { unfold fee_exact. eapply Rle_trans; [|apply Rmax_l]. apply (of_min _ Hfc). }
      set (Z := fee_exact fc (B2R q)) in *. rewrite eps_val in *. lra.
    - intros HQ. rewrite (fltb_no (quote_balance a) tot); [eauto|apply Hqb|apply Ht|].
      rewrite Et. apply round_le_generic; try exact _; [apply generic_format_B2R|exact HQ].
  Qed.

  Lemma SellBase_executes fc x p a :
    ok_settings a -> bounded40 a -> ok_fees fc -> exec_price p -> nneg 78 x -> B2R (base_unit a : f32) <= B2R x ->
    let b := B2R (@Round I x (base_unit a) : f32) in
    b <= B2R (base_balance a : f32) ->
    exists q f, about_down (B2R (quote_unit a : f32)) (b * B2R p) q /\ about_up (B2R (quote_unit a : f32)) (fee_exact fc q) f /\
      (B2R (quote_unit a : f32) <= q - f -> exists a', @SellBase I fc x p a = Done (true, a')).
  Proof.
    intros [Hbu Hqu Hl Hvr] Hb Hfc Hp Hx Hge. unfold SellBase. cbn [fltb fleb fofZ ieee].
    destruct (@zero_finite) as [F0 R0]. destruct Hp as [Fp Hp].
    pose proof (bpow_gt_0 radix2 (-27)) as H20.
    rewrite (fltb_intro (f32_of_Z 0) p) by (auto; lra). rewrite assert_true. cbn [bind].
    pose proof Hx as [Fx Hx'].
    rewrite (fleb_intro (f32_of_Z 0) x) by (auto; lra). rewrite assert_true. cbn [bind].
    pose proof (Round_nneg 78 x (base_unit a) ltac:(lia) Hx Hbu) as Hb1.
    pose proof (Round_ge 78 x (base_unit a) ltac:(lia) Hx Hbu Hge) as Hb3.
    cbv zeta. set (b := @Round I x (base_unit a)) in *. change (@flt I) with f32 in *. intros Hbal.
    destruct Hb as (Hbb & Hqb & Hfb).
    rewrite (fltb_no b (base_unit a)) by (apply Hb1 || apply Hbu || exact Hb3). cbn [orb].
    rewrite (fltb_no (base_balance a) b) by (apply Hb1 || apply Hbb || exact Hbal).
    assert (Hb40 : nneg 40 b).
    { destruct Hb1 as [Fb Hb1]. split; auto. destruct Hbb as [_ Hbb]. lra. }
    cbn [fmul ieee].
    destruct (Bmult_nneg 40 27 b p ltac:(lia) Hb40) as [Hbp Ebp].
    { split; [exact Fp|lra]. }
    change (40 + 27)%Z with 67%Z in *.
    assert (Pbp : 0 <= B2R b * B2R p) by (apply Rmult_le_pos; [apply Hb1|lra]).
    pose proof (Floor_nneg (lm := lm) (as_ := as_) 67 _ (quote_unit a) ltac:(lia) Hbp Hqu) as Hc.
    pose proof (Floor_err (lm := lm) (as_ := as_) 67 _ (quote_unit a) ltac:(lia) Hbp Hqu) as Kq. cbv zeta in Kq.
    change (67 + 3)%Z with 70%Z in *. change (@flt I) with f32 in *.
    set (q := @Floor I (Bmult mode_NE b p) (quote_unit a)) in *.
    pose proof (GetFee_nneg 70 a fc q ltac:(lia) Hfc Hqu Hc) as Hf.
    pose proof (GetFee_err 70 a fc q ltac:(lia) Hfc Hqu Hc) as Kf. cbv zeta in Kf.
    change (70 + 4)%Z with 74%Z in *.
    set (f := @GetFee I a fc q) in *. cbn [fadd fsub ieee].
    destruct (Bminus_finite 74 q f ltac:(lia)) as [Ft Et]; auto.
    { apply (nneg_weaken 70); auto. lia. }
    set (tot := Bminus mode_NE q f) in *. change (@flt I) with f32 in *.
    exists (B2R q), (B2R f). pose proof eta_pos as He. pose proof eta_100 as H100.
    pose proof (rnd_err_le (B2R b * B2R p) Pbp) as Kbp. rewrite <- Ebp in Kbp.
    pose proof (proj2 (ok_unit_sign _ Hqu)) as PQU.
    split; [|split].
    - unfold about_down. rewrite tol_val. set (X := B2R b * B2R p) in *. rewrite eps_val in *. lra.
    - unfold about_up. rewrite tol_val. assert (0 <= fee_exact fc (B2R q)).
      { unfold fee_exact. eapply Rle_trans; [|apply Rmax_l]. apply (of_min _ Hfc). }
      set (Z := fee_exact fc (B2R q)) in *. rewrite eps_val in *. lra.
    - intros HQ. rewrite (fltb_no tot (quote_unit a)); [eauto|apply Ft|apply Hqu|].
      rewrite Et. apply round_ge_generic; try exact _; [apply generic_format_B2R|exact HQ].
  Qed.

  (** The amount a quote amount buys or sells. *)
  Lemma quote_amount_base (D M : R) (d P m bu : f32) k :
    (20 <= k <= 90)%Z -> exec_price P -> 0 <= D -> nneg k d -> B2R d = rnd D -> balance_ok m -> B2R m = M -> ok_unit bu ->
    let y0 := @fmin I (Bdiv mode_NE d P) m in
    let y := @Floor I y0 bu in let T := Rmin (D / B2R P) M in
    (k <= 67)%Z ->
    nneg (30 + k) y /\ T - 3 * eps * T - bpow radix2 (-121) <= B2R (y0 : f32) <= T + 3 * eps * T + bpow radix2 (-121) /\
    (B2R bu <= B2R (y : f32) -> about_down (B2R bu) T (B2R (y : f32)) /\ about_down (B2R bu) T (B2R (@Round I y bu : f32))) /\
    (B2R bu + tol (B2R bu) <= T -> B2R bu <= B2R (y : f32)).
  Proof.
    intros Hk HP HD Hd Ed Hm EM Hu. cbv zeta. intros Hk2. destruct (price_nonneg P HP) as [PP LP].
    destruct (Bdiv_nneg 27 k d P ltac:(lia) Hd (proj1 HP) ltac:(apply HP)) as [Hz Ez].
    pose proof (fmin_nneg (lm := lm) (as_ := as_) _ _ m Hz Hm) as Hy0.
    pose proof (fmin_val (lm := lm) (as_ := as_) _ m (proj1 Hz) (proj1 Hm)) as Ey0. change (@flt I) with f32 in *. rewrite EM, Ez, Ed in Ey0.
    set (y0 := @fmin I (Bdiv mode_NE d P) m) in *. change (@flt I) with f32 in *.
    pose proof (Floor_nneg (lm := lm) (as_ := as_) (27 + k) y0 bu ltac:(lia) Hy0 Hu) as Hy. change (@flt I) with f32 in *.
    pose proof (Floor_err (lm := lm) (as_ := as_) (27 + k) y0 bu ltac:(lia) Hy0 Hu) as K. cbv zeta in K. change (@flt I) with f32 in *.
    pose proof (fun H => Floor_ge (27 + k) y0 bu ltac:(lia) Hy0 Hu H) as G. change (@flt I) with f32 in *.
    set (y := @Floor I y0 bu) in *. change (@flt I) with f32 in *.
    assert (Hy' : nneg (30 + k) y) by (replace (30 + k)%Z with (27 + k + 3)%Z by ring; exact Hy). split; [exact Hy'|].
    pose proof (proj2 (ok_unit_sign _ Hu)) as PU. pose proof eta_pos as He. pose proof (proj2 Hy0) as P0. pose proof (proj2 Hm) as PM. rewrite EM in PM.
    assert (IP : 0 < / B2R P <= bpow radix2 27).
    { split; [apply Rinv_0_lt_compat; exact PP|]. change 27%Z with (- (-27))%Z. rewrite bpow_opp. apply Rinv_le; [apply bpow_gt_0|apply HP]. }
    assert (PT : 0 <= D / B2R P) by (apply Rmult_le_pos; lra).
    pose proof (rnd_err_le D HD) as K1. set (dd := rnd D) in *. assert (Pdd : 0 <= dd) by (apply rnd_nonneg; exact HD).
    assert (Pdp : 0 <= dd / B2R P) by (apply Rmult_le_pos; lra).
    pose proof (rnd_err_le _ Pdp) as K2. set (z := rnd (dd / B2R P)) in *.
    assert (HeP : 0 <= eta * / B2R P <= bpow radix2 (-123)).
    { split; [apply Rmult_le_pos; lra|]. apply Rle_trans with (eta * bpow radix2 27); [apply Rmult_le_compat_l; lra|]. unfold eta. rewrite <- bpow_plus. apply bpow_le. lia. }
    assert (K3 : D / B2R P - D / B2R P * eps - eta * / B2R P <= dd / B2R P <= D / B2R P + D / B2R P * eps + eta * / B2R P).
    { unfold Rdiv. split; [apply Rle_trans with ((D - D * eps - eta) * / B2R P)|apply Rle_trans with ((D + D * eps + eta) * / B2R P)];
        try (right; ring); apply Rmult_le_compat_r; lra. }
    assert (H121 : bpow radix2 (-121) = 4 * bpow radix2 (-123)) by (change (-121)%Z with (2 + -123)%Z; rewrite bpow_plus; reflexivity).
    assert (He2 : eta <= bpow radix2 (-123)) by (apply bpow_le; lia).
    assert (H100 : bpow radix2 (-100) = 8388608 * bpow radix2 (-123)) by (change (-100)%Z with (23 + -123)%Z; rewrite bpow_plus; reflexivity).
    set (b123 := bpow radix2 (-123)) in *. set (eP := eta * / B2R P) in *. set (X := D / B2R P) in *. set (Y := dd / B2R P) in *.
    assert (B0 : Rmin X M - 3 * eps * Rmin X M - bpow radix2 (-121) <= B2R y0 <= Rmin X M + 3 * eps * Rmin X M + bpow radix2 (-121)).
    { rewrite Ey0, H121. unfold Rmin. destruct (Rle_dec z M), (Rle_dec X M); rewrite eps_val in *; lra. }
    assert (PTm : 0 <= Rmin X M) by (apply Rmin_glb; lra).
    set (T := Rmin X M) in *. split; [exact B0|]. split.
    - intros Ly.
      assert (Wy : float_units bu y) by (apply Floor_whole; [exact Hu|apply Hy]).
      pose proof (round_again (lm := lm) (as_ := as_) (30 + k) y bu ltac:(lia) Hy' Hu Wy Ly) as R. change (@flt I) with f32 in *.
      unfold about_down. rewrite tol_val, H100. rewrite H121 in B0. rewrite eps_val in *. lra.
    - intros L. apply G. rewrite tol_val, H100 in L. rewrite H121 in B0. rewrite eps_val in *. lra.
  Qed.

  Lemma BuyAtQuote_runs fc x p m a :
    ok_settings a -> bounded40 a -> ok_fees fc -> exec_price p -> nneg 40 x -> balance_ok m ->
    B2R (quote_unit a : f32) <= B2R x ->
    let q := @Round I x (quote_unit a) in let f := @GetFee I a fc q in
    let y := @Floor I (@fmin I (Bdiv mode_NE (Bminus mode_NE q f) p) m) (base_unit a) in
    B2R (q : f32) <= B2R (quote_balance a : f32) -> B2R (f : f32) < B2R (q : f32) -> B2R (base_unit a : f32) <= B2R (y : f32) ->
    @BuyAtQuote I fc x p m a = @BuyBase I fc y p a /\ nneg 77 y /\ B2R (y : f32) * B2R p <= bpow radix2 87.
  Proof.
    intros Hset Hb Hfc Hp Hx Hm Hge. pose proof Hset as [Hbu Hqu Hl Hvr].
    unfold BuyAtQuote. cbn [fltb fleb fofZ ieee].
    destruct (@zero_finite) as [F0 R0]. pose proof Hp as [Fp Hp'].
    pose proof (bpow_gt_0 radix2 (-27)) as H20.
    rewrite (fltb_intro (f32_of_Z 0) p) by (auto; lra). rewrite assert_true. cbn [bind].
    pose proof Hx as [Fx Hx'].
    rewrite (fleb_intro (f32_of_Z 0) x) by (auto; lra). rewrite assert_true. cbn [bind].
    pose proof (Round_nneg 40 x (quote_unit a) ltac:(lia) Hx Hqu) as Hq.
    pose proof (Round_ge 40 x (quote_unit a) ltac:(lia) Hx Hqu Hge) as Hq2.
    change (40 + 3)%Z with 43%Z in *. cbv zeta.
    set (q := @Round I x (quote_unit a)) in *. intros HQ.
    rewrite (fltb_no q (quote_unit a)) by (apply Hq || apply Hqu || exact Hq2). cbn [orb].
    rewrite (fltb_no (quote_balance a) q) by (apply Hq || apply (proj1 (proj2 Hb)) || exact HQ).
    pose proof (GetFee_nneg 43 a fc q ltac:(lia) Hfc Hqu Hq) as Hf.
    change (43 + 4)%Z with 47%Z in *.
    set (f := @GetFee I a fc q) in *. intros Ecmp.
    rewrite (fleb_no q f) by (apply Hq || apply Hf || exact Ecmp).
    cbn [fdiv fsub ieee].
    destruct (Bminus_nneg 47 q f ltac:(lia)) as [Hd _]; auto; [|lra|].
    { apply (nneg_weaken 43); auto. lia. }
    destruct (Bdiv_nneg 27 47 (Bminus mode_NE q f) p ltac:(lia) Hd Fp ltac:(apply Hp')) as [Hdiv Ediv].
    change (27 + 47)%Z with 74%Z in *.
    pose proof (fmin_nneg (lm := lm) (as_ := as_) 74 _ m Hdiv Hm) as Hmin.
    pose proof (Floor_nneg (lm := lm) (as_ := as_) 74 _ (base_unit a) ltac:(lia) Hmin Hbu) as Hfl.
    change (74 + 3)%Z with 77%Z in *.
    pose proof (Floor_le (lm := lm) (as_ := as_) 74 _ (base_unit a) ltac:(lia) Hmin Hbu) as Hle.
    assert (Hmin' : B2R (@fmin I (Bdiv mode_NE (Bminus mode_NE q f) p) m : f32) <= 2 * (B2R (Bminus mode_NE q f) / B2R p)).
    { apply Rle_trans with (B2R (Bdiv mode_NE (Bminus mode_NE q f) p)).
      - unfold fmin. cbn [fltb ieee]. destruct (Bltb m _) eqn:Em; [|lra]. apply fltb_true in Em; [lra|apply Hm|apply Hdiv].
      - rewrite Ediv. apply rnd_le_2. destruct Hd as [_ Hd]. apply Rmult_le_pos; [lra|]. left; apply Rinv_0_lt_compat; lra. }
    set (y := @Floor I (@fmin I (Bdiv mode_NE (Bminus mode_NE q f) p) m) (base_unit a)) in *. intros Ey.
    rewrite (fltb_no y (base_unit a)) by (apply Hfl || apply Hbu || exact Ey).
    split; [reflexivity|]. split; [exact Hfl|].
    assert (Hu20 : 0 <= B2R (base_unit a : f32) <= bpow radix2 20).
    { pose proof (bpow_gt_0 radix2 (-30)). destruct Hbu as [_ [->|Hu]]; [split; [lra|apply bpow_ge_0]|lra]. }
    eapply Rle_trans; [apply Rmult_le_compat_r; [lra|exact Hle]|].
    apply Rle_trans with ((8 * (B2R (Bminus mode_NE q f) / B2R p) + 2 * B2R (base_unit a : f32)) * B2R p).
    { apply Rmult_le_compat_r; lra. }
    replace ((8 * (B2R (Bminus mode_NE q f) / B2R p) + 2 * B2R (base_unit a : f32)) * B2R p)
      with (8 * B2R (Bminus mode_NE q f) + 2 * (B2R (base_unit a : f32) * B2R p)) by (field; lra).
    assert (B2R (base_unit a : f32) * B2R p <= bpow radix2 20 * bpow radix2 27) by (apply Rmult_le_compat; lra).
    rewrite <- bpow_plus in *. assert (bpow radix2 (20 + 27) <= bpow radix2 47) by (apply bpow_le; lia).
    destruct Hd as [_ Hd]. assert (E : bpow radix2 87 = bpow radix2 40 * bpow radix2 47) by (rewrite <- bpow_plus; reflexivity).
    assert (16 <= bpow radix2 40) by (change 16 with (bpow radix2 4); apply bpow_le; lia). rewrite E. nra.
  Qed.

  Lemma SellAtQuote_runs fc x p m a :
    ok_settings a -> bounded40 a -> ok_fees fc -> exec_price p -> nneg 40 x -> balance_ok m ->
    B2R (quote_unit a : f32) <= B2R x ->
    let q := @Round I x (quote_unit a) in let f := @GetFee I a fc q in
    let y := @Floor I (@fmin I (Bdiv mode_NE (Bplus mode_NE q f) p) m) (base_unit a) in
    B2R (base_unit a : f32) <= B2R (y : f32) ->
    @SellAtQuote I fc x p m a = @SellBase I fc y p a /\ nneg 78 y.
  Proof.
    intros Hset Hb Hfc Hp Hx Hm Hge. pose proof Hset as [Hbu Hqu Hl Hvr].
    unfold SellAtQuote. cbn [fltb fleb fofZ ieee].
    destruct (@zero_finite) as [F0 R0]. pose proof Hp as [Fp Hp'].
    pose proof (bpow_gt_0 radix2 (-27)) as H20.
    rewrite (fltb_intro (f32_of_Z 0) p) by (auto; lra). rewrite assert_true. cbn [bind].
    pose proof Hx as [Fx Hx'].
    rewrite (fleb_intro (f32_of_Z 0) x) by (auto; lra). rewrite assert_true. cbn [bind].
    pose proof (Round_nneg 40 x (quote_unit a) ltac:(lia) Hx Hqu) as Hq.
    pose proof (Round_ge 40 x (quote_unit a) ltac:(lia) Hx Hqu Hge) as Hq2.
    change (40 + 3)%Z with 43%Z in *. cbv zeta.
    set (q := @Round I x (quote_unit a)) in *.
    rewrite (fltb_no q (quote_unit a)) by (apply Hq || apply Hqu || exact Hq2).
    pose proof (GetFee_nneg 43 a fc q ltac:(lia) Hfc Hqu Hq) as Hf.
    change (43 + 4)%Z with 47%Z in *.
    set (f := @GetFee I a fc q) in *.
    cbn [fdiv fadd ieee].
    destruct (Bplus_nneg 47 q f ltac:(lia)) as [Hd _]; auto.
    { apply (nneg_weaken 43); auto. lia. }
    change (47 + 1)%Z with 48%Z in *.
    destruct (Bdiv_nneg 27 48 (Bplus mode_NE q f) p ltac:(lia) Hd Fp ltac:(apply Hp')) as [Hdiv _].
    change (27 + 48)%Z with 75%Z in *.
    pose proof (fmin_nneg (lm := lm) (as_ := as_) 75 _ m Hdiv Hm) as Hmin.
    pose proof (Floor_nneg (lm := lm) (as_ := as_) 75 _ (base_unit a) ltac:(lia) Hmin Hbu) as Hfl.
    change (75 + 3)%Z with 78%Z in *.
    set (y := @Floor I (@fmin I (Bdiv mode_NE (Bplus mode_NE q f) p) m) (base_unit a)) in *. intros Ey.
    rewrite (fltb_no y (base_unit a)) by (apply Hfl || apply Hbu || exact Ey). auto.
  Qed.

  (** A triggered order runs the settlement function of its side and kind of amount. *)
  Definition cap_of (ty : order_type) (a : @account I) (t : @ohlc_tick I) : f32 :=
    match ty with LIMIT => @GetMaxBaseAmount I a t | _ => @fmaxval I end.

  Lemma order_runs c o t a ty sd p am :
    ok_config c -> ok_settings a -> bounded40 a -> ok_tick t -> asks o ty sd p am -> ftriggered ty sd (B2R p) t ->
    let V := ideal_price (B2R (market_liquidity a : f32)) ty sd (B2R p) t in
    let fc := ffees_of c ty in
    exists P, exec_price P /\ V - 4 * eps * V <= B2R P <= V + 4 * eps * V /\ (ty = LIMIT -> P = p) /\
      match am with
      | NoAmount => False
      | BaseAmount x =>
        let y := match ty with LIMIT => @fmin I x (@GetMaxBaseAmount I a t) | _ => x end in
        nneg 60 y /\ @ExecuteOrder I c o t a = match sd with BUY => @BuyBase I fc y P a | SELL => @SellBase I fc y P a end
      | QuoteAmount x =>
        @ExecuteOrder I c o t a = match sd with BUY => @BuyAtQuote I fc x P (cap_of ty a t) a | SELL => @SellAtQuote I fc x P (cap_of ty a t) a end
      end.
  Proof.
    intros [Hc1 Hc2 Hc3] Hset Hb Ht [Hty Hsd Ham Hx Hpr] Htr.
    assert (Hcase : exists x, (am = @BaseAmount I x /\ nneg 60 x \/ am = @QuoteAmount I x /\ nneg 40 x) /\ nneg 60 x /\ 0 < B2R (x : f32)).
    { destruct am as [|x|x]; [destruct Hx| |]; destruct Hx as [Hox Hpos]; apply range_nneg in Hox; exists x.
      - auto.
      - split; [auto|]. split; [apply (nneg_weaken 40); auto; lia|exact Hpos]. }
    clear Hx. destruct Hcase as (x & Hx & Hn60 & Hpos).
    pose proof (positive_num x ltac:(apply Hn60) Hpos) as Hpx.
    pose proof (nonneg_true _ _ Hn60) as Hge.
    assert (Hpam : @positive_amount I am).
    { destruct Hx as [[-> _]|[-> _]]; exact Hpx. }
    pose proof (MaxBase_ok a t Hset Ht) as Hcap.
    pose proof Ht as [Ho Hh Hl Hcl Hv _ _]. pose proof (os_liquidity _ Hset) as Hliq.
    assert (HMB : exec_price (@GetMarketBuyPrice I a t)) by (apply mix_price; auto).
    assert (HMS : exec_price (@GetMarketSellPrice I a t)) by (apply mix_price; auto).
    assert (Hmin60 : nneg 60 (@fmin I x (@GetMaxBaseAmount I a t))) by (apply fmin_nneg; auto).
    assert (Hpriced : ty <> MARKET ->
       order_is o ty sd am p /\ @positive I p /\ ok_price p /\ exec_price p /\
       exec_price (@GetStopBuyPrice I a t p) /\ exec_price (@GetStopSellPrice I a t p)).
    { intros Hne. destruct Hpr as [Hm|[Hp Hpp]]; [contradiction|].
      pose proof (positive_price (lm := lm) (as_ := as_) p Hpp) as Hpp'.
      split; [apply order_is_priced; auto|]. split; [exact Hpp'|]. split; [exact Hpp|]. split; [apply price_exec; exact Hpp|].
      split; apply mix_price; auto using fmax_price, fmin_price. }
    assert (FR : forall z, ok_price z -> is_finite z = true) by (intros z Hz; apply Hz).
    destruct ty; cbv zeta; cbn [ffees_of cap_of].
    - assert (Hd : order_is o MARKET sd am x) by (apply order_is_market; auto).
      apply (dispatch c o t a) in Hd.
      destruct sd; destruct Hx as [[Hx Hk]|[Hx Hk]]; rewrite Hx in Hd |- *; cbn [operation] in Hd;
        injection Hd as Hd; cbn [ideal_price]; rewrite <- Hd.
      + exists (@GetMarketBuyPrice I a t). split; [exact HMB|]. split; [apply mix_err; auto|]. split; [discriminate|]. split; [exact Hk|reflexivity].
      + exists (@GetMarketBuyPrice I a t). split; [exact HMB|]. split; [apply mix_err; auto|]. split; [discriminate|]. reflexivity.
      + exists (@GetMarketSellPrice I a t). split; [exact HMS|]. split; [apply mix_err; auto|]. split; [discriminate|]. split; [exact Hk|reflexivity].
      + exists (@GetMarketSellPrice I a t). split; [exact HMS|]. split; [apply mix_err; auto|]. split; [discriminate|]. reflexivity.
    - destruct (Hpriced ltac:(discriminate)) as (Hd & Hpp & Hpok & Hep & HSB & HSS).
      apply (dispatch c o t a) in Hd.
      assert (EB : B2R (@fmax I p (open t) : f32) = Rmax (B2R p) (B2R (open t : f32))) by (apply fmax_val; auto).
      assert (ES : B2R (@fmin I p (open t) : f32) = Rmin (B2R p) (B2R (open t : f32))) by (apply fmin_val; auto).
      pose proof (mix_err (market_liquidity a) (@fmax I p (open t)) (high t) Hliq (fmax_price (lm := lm) (as_ := as_) _ _ Hpok Ho) Hh) as MB.
      pose proof (mix_err (market_liquidity a) (@fmin I p (open t)) (low t) Hliq (fmin_price (lm := lm) (as_ := as_) _ _ Hpok Ho) Hl) as MS.
      cbv zeta in MB, MS. change (@flt I) with f32 in *. rewrite EB in MB. rewrite ES in MS.
      destruct sd; destruct Hx as [[Hx Hk]|[Hx Hk]]; rewrite Hx in Hd |- *; cbn [operation] in Hd;
        injection Hd as Hd; unfold StopBuy, StopBuyAtQuote, StopSell, StopSellAtQuote in Hd;
        rewrite Hpp, assert_true in Hd; cbn [bind] in Hd; rewrite Hge, assert_true in Hd; cbn [bind] in Hd;
        cbn [ftriggered] in Htr; cbn [fltb ieee] in Hd; change (@flt I) with f32 in *;
        (rewrite fltb_no in Hd; [|apply FR; assumption|apply FR; assumption|exact Htr]);
        cbn [ideal_price]; rewrite <- Hd.
      + exists (@GetStopBuyPrice I a t p). split; [exact HSB|]. split; [apply MB|]. split; [discriminate|]. split; [exact Hk|reflexivity].
      + exists (@GetStopBuyPrice I a t p). split; [exact HSB|]. split; [apply MB|]. split; [discriminate|]. reflexivity.
      + exists (@GetStopSellPrice I a t p). split; [exact HSS|]. split; [apply MS|]. split; [discriminate|]. split; [exact Hk|reflexivity].
      + exists (@GetStopSellPrice I a t p). split; [exact HSS|]. split; [apply MS|]. split; [discriminate|]. reflexivity.
    - destruct (Hpriced ltac:(discriminate)) as (Hd & Hpp & Hpok & Hep & HSB & HSS).
      apply (dispatch c o t a) in Hd.
      assert (Pp : 0 <= B2R p) by (destruct Hep as [_ Hep]; pose proof (bpow_gt_0 radix2 (-27)); lra).
      destruct sd; destruct Hx as [[Hx Hk]|[Hx Hk]]; rewrite Hx in Hd |- *; cbn [operation] in Hd;
        injection Hd as Hd; unfold LimitBuy, LimitBuyAtQuote, LimitSell, LimitSellAtQuote in Hd;
        rewrite Hpp, assert_true in Hd; cbn [bind] in Hd; rewrite Hge, assert_true in Hd; cbn [bind] in Hd;
        cbn [ftriggered] in Htr; cbn [fltb ieee] in Hd; change (@flt I) with f32 in *;
        (rewrite fltb_no in Hd; [|apply FR; assumption|apply FR; assumption|exact Htr]);
        cbn [ideal_price]; rewrite <- Hd;
        (exists p; split; [exact Hep|]; split; [rewrite eps_val; lra|]; split; [reflexivity|]); try (split; [exact Hmin60|]); reflexivity.
  Qed.
End Clear.
