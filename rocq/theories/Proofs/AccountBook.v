(** Trades of the float account: errors of the bookkeeping, and exact numbers of units. *)
From Coq Require Import Reals ZArith Bool List Lra Lia.
From Flocq Require Import Core BinarySingleNaN Plus_error.
From Verif.Model Require Import Outcome Machine Types Account MachineIEEE.
From Verif.Spec Require Import AccountSpec AccountIEEESpec OrderSpec SetupSpec FloatTradeSpec.
From Verif.Proofs Require Import Base FloatLemmas FloatErr AccountAny AccountIEEE AccountErr.
Import ListNotations.
Local Open Scope R_scope.

Lemma nearest_rnd r (x : f32) : nearest_float r x <-> is_finite x = true /\ B2R x = rnd r.
Proof. unfold nearest_float. assert (E : rnd r = round radix2 (FLT_exp (-149) 24) ZnearestE r) by (apply (round_ext radix2); intros; reflexivity). rewrite E. tauto. Qed.

Lemma and_assoc3 (A B C D : Prop) : (A /\ B /\ C /\ D) <-> ((A /\ B) /\ (C /\ D)).
Proof. tauto. Qed.

Section Book.
  Context {lm : libm} {as_ : bool}.
  Local Notation I := (ieee lm as_).

  (** The quote amount of a trade. *)
  Definition quote_of (sd : order_side) (a : @account I) (b p : f32) : f32 :=
    match sd with
    | BUY => @Ceil I (Bmult mode_NE b p) (quote_unit a)
    | SELL => @Floor I (Bmult mode_NE b p) (quote_unit a)
    end.

  (** Rounding a number close to a whole number of units. *)
  Lemma near_whole q N : Rabs (IZR (round_mode mode_NA q) - IZR N) <= 2 * Rabs (q - IZR N).
  Proof.
    cbn [round_mode]. change (ZnearestA q) with (Znearest (Zle_bool 0) q).
    destruct (Rlt_dec (Rabs (q - IZR N)) (/ 2)) as [L|L].
    - rewrite (Znearest_imp _ q N L). rewrite Rminus_diag_eq by reflexivity. rewrite Rabs_R0. pose proof (Rabs_pos (q - IZR N)). lra.
    - pose proof (Znearest_half (Zle_bool 0) q) as H. rewrite Rabs_minus_sym in H.
      replace (IZR (Znearest (Zle_bool 0) q) - IZR N) with ((IZR (Znearest (Zle_bool 0) q) - q) + (q - IZR N)) by ring.
      eapply Rle_trans; [apply Rabs_triang|]. lra.
  Qed.

  Lemma settle_units k (s u : f32) (N : Z) D :
    (20 <= k <= 97)%Z -> nneg k s -> is_finite u = true -> bpow radix2 (-30) <= B2R u <= bpow radix2 20 ->
    Rabs (B2R s - B2R u * IZR N) <= D ->
    Rabs (B2R (@Round I s u : f32) - B2R u * IZR N) <= 2 * (1 + eps) * (D + B2R s * eps + B2R u * eta) + Rabs (B2R u * IZR N) * eps + eta.
  Proof.
    intros Hk Hs Fu Hu HD. pose proof (bpow_gt_0 radix2 (-30)) as P30.
    unfold Round. cbn [fltb fofZ ieee fmul fround fdiv]. destruct (@zero_finite) as [F0 R0].
    rewrite (fltb_intro (f32_of_Z 0) u) by (auto; lra).
    destruct (unit_round_nneg mode_NA k s u Hk Hs Fu Hu) as [_ ->]. destruct Hs as [_ Hs].
    assert (Hq : 0 <= B2R s / B2R u) by (apply Rmult_le_pos; [lra|]; left; apply Rinv_0_lt_compat; lra).
    pose proof (rnd_err_abs (B2R s / B2R u)) as Eq. rewrite (Rabs_pos_eq (B2R s / B2R u)) in Eq by exact Hq.
    set (q := rnd (B2R s / B2R u)) in *. pose proof (near_whole q N) as Hn. set (n := IZR (round_mode mode_NA q)) in *.
    assert (Hxu : B2R u * (B2R s / B2R u) = B2R s) by (field; lra).
    set (U := B2R u) in *. set (S_ := B2R s) in *. set (W := U * IZR N) in *.
    assert (Uq : Rabs (U * q - S_) <= S_ * eps + U * eta).
    { replace (U * q - S_) with (U * (q - S_ / U)) by (rewrite Rmult_minus_distr_l, Hxu; reflexivity).
      rewrite Rabs_mult, (Rabs_pos_eq U) by lra. replace (S_ * eps + U * eta) with (U * (S_ / U * eps + eta)).
      - apply Rmult_le_compat_l; [lra|exact Eq].
      - rewrite Rmult_plus_distr_l, <- Rmult_assoc, Hxu. reflexivity. }
    assert (UqW : Rabs (U * q - W) <= D + S_ * eps + U * eta).
    { replace (U * q - W) with ((U * q - S_) + (S_ - W)) by ring. eapply Rle_trans; [apply Rabs_triang|]. lra. }
    assert (UnW : Rabs (U * n - W) <= 2 * (D + S_ * eps + U * eta)).
    { unfold W in *. rewrite <- Rmult_minus_distr_l in *. rewrite Rabs_mult, (Rabs_pos_eq U) in * by lra.
      apply Rle_trans with (U * (2 * Rabs (q - IZR N))); [apply Rmult_le_compat_l; lra|]. lra. }
    pose proof (rnd_err_abs (U * n)) as En.
    assert (An : Rabs (U * n) <= Rabs W + 2 * (D + S_ * eps + U * eta)).
    { replace (U * n) with ((U * n - W) + W) by ring. eapply Rle_trans; [apply Rabs_triang|]. lra. }
    replace (rnd (U * n) - W) with ((rnd (U * n) - U * n) + (U * n - W)) by ring. eapply Rle_trans; [apply Rabs_triang|].
    rewrite eps_val in *. lra.
  Qed.

  (** A whole number of units, as a real number. *)
  Lemma units_of (u x : f32) : ok_unit u -> 0 < B2R u -> is_finite x = true -> 0 <= B2R x -> float_units u x ->
    exists n, (0 <= n)%Z /\ B2R x = rnd (B2R u * IZR n) /\
      Rabs (B2R x - B2R u * IZR n) <= 17 / 16 * eps * B2R x + 17 / 16 * eta /\
      Rabs (B2R x - B2R u * IZR n) <= eps * (B2R u * IZR n) + eta.
  Proof.
    intros [Fu Hu] Pu Fx Px [U0|(n & Fn & (k & Ek) & E)]; [lra|]. destruct Hu as [Hu|Hu]; [lra|].
    pose proof (bpow_gt_0 radix2 (-30)) as P30.
    assert (EV : B2R x = rnd (B2R u * IZR k)).
    { rewrite E in Fx |- *. pose proof (Bmult_correct 24 128 _ _ mode_NE u n) as H. cbn [round_mode] in H. rewrite Ek in H.
      destruct (Rlt_bool (Rabs (round radix2 (SpecFloat.fexp 24 128) ZnearestE (B2R u * IZR k))) (bpow radix2 128)) eqn:EO.
      - apply H.
      - exfalso. destruct (Bmult mode_NE u n); cbn in H; try discriminate Fx; discriminate H. }
    assert (Hk : (0 <= k)%Z).
    { destruct (Z_le_gt_dec 0 k) as [L|L]; [exact L|]. exfalso.
      assert (IZR k <= -1) by (apply (IZR_le k (-1)); lia).
      assert (B2R u * IZR k <= - B2R u) by nra.
      assert (rnd (B2R u * IZR k) <= rnd (- B2R u)) by (apply rnd_mono; assumption).
      rewrite (round_generic radix2 fexp32 ZnearestE (- B2R u)) in * by (apply generic_format_opp, generic_format_B2R). lra. }
    exists k. split; [exact Hk|]. split; [exact EV|].
    assert (PW : 0 <= B2R u * IZR k) by (apply Rmult_le_pos; [lra|apply (IZR_le 0); exact Hk]).
    pose proof (rnd_err_le _ PW) as K. rewrite <- EV in K. pose proof eta_pos as He. set (W := B2R u * IZR k) in *.
    split; apply Rabs_le; rewrite eps_val in *; lra.
  Qed.

  Lemma ok_unit_cases u : ok_unit u -> B2R u = 0 \/ (0 < B2R u /\ is_finite u = true /\ bpow radix2 (-30) <= B2R u <= bpow radix2 20).
  Proof. intros [F [H|H]]; auto. right. pose proof (bpow_gt_0 radix2 (-30)). repeat split; auto; lra. Qed.

  Lemma Round_zero_unit (s u : @flt I) : ok_unit u -> B2R (u : f32) = 0 -> @Round I s u = s.
  Proof.
    intros [F _] H. unfold Round. cbn [fltb fofZ ieee]. destruct (@zero_finite) as [F0 R0].
    destruct (Bltb (f32_of_Z 0) u) eqn:E; [|reflexivity]. apply fltb_true in E; auto. lra.
  Qed.

  Lemma settle_about k (s u : f32) X M (N : Z) :
    (20 <= k <= 97)%Z -> nneg k s -> ok_unit u -> Rabs X <= M + 4 * eta ->
    Rabs (B2R s - X) <= 9 / 4 * eps * M + 4 * eta ->
    (0 < B2R u -> Rabs (B2R u * IZR N - X) <= 9 / 4 * eps * M + 8 * eta) ->
    about M X (B2R (@Round I s u : f32)).
  Proof.
    intros Hk Hs Hu HX HS HN. unfold about. rewrite tol_val. pose proof eta_pos as He. pose proof eta_100 as H100.
    pose proof (proj2 Hs) as Ps. pose proof (Rabs_pos X) as PX.
    destruct (ok_unit_cases u Hu) as [U0|(PU & FU & RU)].
    - rewrite (Round_zero_unit s u Hu U0). rewrite eps_val in *. lra.
    - specialize (HN PU). set (W := B2R u * IZR N) in *.
      assert (HD : Rabs (B2R s - W) <= 9 / 2 * eps * M + 12 * eta).
      { replace (B2R s - W) with ((B2R s - X) + - (W - X)) by ring. eapply Rle_trans; [apply Rabs_triang|]. rewrite Rabs_Ropp. lra. }
      pose proof (settle_units k s u N _ Hk Hs FU RU HD) as G. fold W in G.
      assert (HW : Rabs W <= M + (9 / 4 * eps * M + 12 * eta)).
      { replace W with ((W - X) + X) by ring. eapply Rle_trans; [apply Rabs_triang|]. lra. }
      assert (Hs2 : B2R s <= M + (9 / 4 * eps * M + 8 * eta)).
      { rewrite <- (Rabs_pos_eq (B2R s)) by lra. replace (B2R s) with ((B2R s - X) + X) by ring. eapply Rle_trans; [apply Rabs_triang|]. lra. }
      assert (HU : B2R u * eta <= bpow radix2 (-120)).
      { apply Rle_trans with (bpow radix2 20 * eta); [apply Rmult_le_compat_r; lra|]. unfold eta. rewrite <- bpow_plus. apply bpow_le. lia. }
      assert (H120 : bpow radix2 (-120) * 1048576 = bpow radix2 (-100)) by (change 1048576 with (bpow radix2 20); rewrite <- bpow_plus; reflexivity).
      match goal with |- Rabs (?r - X) <= _ => replace (r - X) with ((r - W) + (W - X)) by ring end.
      eapply Rle_trans; [apply Rabs_triang|]. rewrite eps_val in *. lra.
  Qed.

  (** A whole amount, with unit zero allowed. *)
  Lemma whole_num (u x : f32) : ok_unit u -> is_finite x = true -> 0 <= B2R x -> float_units u x ->
    exists n, 0 < B2R u -> (0 <= n)%Z /\ B2R x = rnd (B2R u * IZR n) /\
      B2R x - (17 / 16 * eps * B2R x + 17 / 16 * eta) <= B2R u * IZR n <= B2R x + (17 / 16 * eps * B2R x + 17 / 16 * eta).
  Proof.
    intros Hu Fx Px Wx. destruct (ok_unit_cases u Hu) as [U0|(PU & FU & RU)].
    - exists 0%Z. intros; lra.
    - destruct (units_of u x Hu PU Fx Px Wx) as (n & Hn & En & Dx & _). exists n. intros _. split; [exact Hn|]. split; [exact En|].
      apply Rabs_le_inv in Dx. lra.
  Qed.

  Lemma Ceil_whole (x u : @flt I) : ok_unit u -> is_finite (@Ceil I x u : f32) = true -> float_units u (@Ceil I x u).
  Proof.
    intros Hu. destruct (ok_unit_sign _ Hu) as [Fu Pu]. unfold Ceil. cbn [fltb fofZ ieee fmul fceil fdiv].
    destruct (@zero_finite) as [F0 R0]. destruct (Bltb (f32_of_Z 0) u) eqn:E.
    - apply fltb_true in E; auto. apply (rounded_whole (Bnearbyint mode_UP) mode_UP); auto; lra.
    - apply fltb_false in E; auto. intros _. left. lra.
  Qed.
  Lemma Floor_whole (x u : @flt I) : ok_unit u -> is_finite (@Floor I x u : f32) = true -> float_units u (@Floor I x u).
  Proof.
    intros Hu. destruct (ok_unit_sign _ Hu) as [Fu Pu]. unfold Floor. cbn [fltb fofZ ieee fmul ffloor fdiv].
    destruct (@zero_finite) as [F0 R0]. destruct (Bltb (f32_of_Z 0) u) eqn:E.
    - apply fltb_true in E; auto. apply (rounded_whole (Bnearbyint mode_DN) mode_DN); auto; lra.
    - apply fltb_false in E; auto. intros _. left. lra.
  Qed.
  Lemma Round_whole (x u : @flt I) : ok_unit u -> is_finite (@Round I x u : f32) = true -> float_units u (@Round I x u).
  Proof. intros Hu. destruct (ok_unit_sign _ Hu). apply Round_whole_float; auto. Qed.

  Lemma buy_books fc x p a a' :
    ok_settings a -> bounded40 a -> float_whole a -> ok_fees fc -> exec_price p -> nneg 77 x -> B2R x * B2R p <= bpow radix2 87 ->
    @BuyBase I fc x p a = Done (true, a') ->
    exists tr, tr_side tr = BUY /\ tr_price tr = B2R p /\ tr_base tr = B2R (@Round I x (base_unit a) : f32) /\
      fair_float fc a tr /\ booked_float a tr a' /\
      tr_quote tr = B2R (quote_of BUY a (@Round I x (base_unit a)) p) /\
      tr_fee tr = B2R (@GetFee I a fc (quote_of BUY a (@Round I x (base_unit a)) p) : f32).
  Proof.
    intros Hset Hb (WB & WQ & WF) Hfc Hp Hx Hxp H. pose proof Hset as [Hbu Hqu _ _].
    destruct (BuyBase_parts fc x p a a' Hset Hb Hfc Hp Hx Hxp H) as
      (q & f & tot & Eq & Ef & Hb1 & Hbp & Ebp & Hq & Hf & Et & Htot & Hbase & (s1 & N1 & V1 & B1) & (s2 & N2 & V2 & B2) & (s3 & N3 & V3 & B3)).
    change (@flt I) with f32 in *.
    assert (Wb : float_units (base_unit a) (@Round I x (base_unit a))) by (apply Round_whole; [exact Hbu|apply Hb1]).
    assert (Wq : float_units (quote_unit a) q) by (rewrite Eq; apply Ceil_whole; [exact Hqu|rewrite <- Eq; apply Hq]).
    assert (Wf : float_units (quote_unit a) f).
    { destruct (ok_unit_sign _ Hqu). rewrite Ef. apply GetFee_whole; auto. rewrite <- Ef. apply Hf. }
    set (b := @Round I x (base_unit a)) in *.
    exists (Trade BUY (B2R p) (B2R b) (B2R q) (B2R f)). cbn [tr_side tr_price tr_base].
    split; [reflexivity|]. split; [reflexivity|]. split; [reflexivity|].
    pose proof (proj2 (ok_unit_sign _ Hbu)) as PBU. pose proof (proj2 (ok_unit_sign _ Hqu)) as PQU.
    destruct Hb as (Hbb & Hqb & Hfb).
    assert (Pb : 0 <= B2R b) by apply Hb1. assert (Pq : 0 <= B2R q) by apply Hq. assert (Pf : 0 <= B2R f) by apply Hf.
    assert (PB : 0 <= B2R (base_balance a)) by apply Hbb. assert (PQ : 0 <= B2R (quote_balance a)) by apply Hqb.
    assert (PF : 0 <= B2R (total_fee a)) by apply Hfb. assert (Pp : 0 <= B2R p) by (destruct Hp as [_ Hp]; pose proof (bpow_gt_0 radix2 (-27)); lra).
    pose proof (rnd_err_le (B2R b * B2R p) (Rmult_le_pos _ _ Pb Pp)) as Kbp. pose proof (Rmult_le_pos _ _ Pb Pp) as Pbp. rewrite <- Ebp in Kbp.
    pose proof (Ceil_err (lm := lm) (as_ := as_) 90 _ (quote_unit a) ltac:(lia) Hbp Hqu) as Kq. cbv zeta in Kq.
    change (@flt I) with f32 in *. rewrite <- Eq in Kq.
    pose proof (GetFee_err 93 a fc q ltac:(lia) Hfc Hqu Hq) as Kf. cbv zeta in Kf. change (@flt I) with f32 in *. rewrite <- Ef in Kf.
    pose proof (rnd_err_le (B2R q + B2R f) ltac:(lra)) as Kt. rewrite <- Et in Kt.
    pose proof eta_pos as He. pose proof eta_100 as H100.
    rewrite and_assoc3. split; [|cbn [tr_quote tr_fee quote_of]; rewrite <- Eq, <- Ef; auto].
    split.
    - constructor; cbn [tr_side tr_price tr_base tr_quote tr_fee]; auto.
      + unfold about_up. rewrite tol_val. change (@flt I) with f32 in *. set (X := B2R b * B2R p) in *. rewrite eps_val in *. lra.
      + unfold about_up. rewrite tol_val. change (@flt I) with f32 in *.
        assert (0 <= fee_exact fc (B2R q)).
        { unfold fee_exact. eapply Rle_trans; [|apply Rmax_l]. apply (of_min _ Hfc). }
        set (Z := fee_exact fc (B2R q)) in *. rewrite eps_val in *. lra.
      + rewrite tol_val. change (@flt I) with f32 in *. rewrite eps_val in *. lra.
    - unfold booked_float. cbn [tr_side tr_price tr_base tr_quote tr_fee]. change (@flt I) with f32 in *. rewrite B1, B2, B3.
      destruct (whole_num _ _ Hbu (proj1 Hbb) PB WB) as (nB & HB). destruct (whole_num _ _ Hbu (proj1 Hb1) Pb Wb) as (nb & Hnb).
      destruct (whole_num _ _ Hqu (proj1 Hqb) PQ WQ) as (nQ & HQ). destruct (whole_num _ _ Hqu (proj1 Hq) Pq Wq) as (nq & Hnq).
      destruct (whole_num _ _ Hqu (proj1 Hf) Pf Wf) as (nf & Hnf). destruct (whole_num _ _ Hqu (proj1 Hfb) PF WF) as (nF & HF).
      pose proof (rnd_err_le (B2R (base_balance a) + B2R b) ltac:(lra)) as K1. rewrite <- V1 in K1.
      pose proof (rnd_err_le (B2R (quote_balance a) - B2R tot) ltac:(lra)) as K2. rewrite <- V2 in K2.
      pose proof (rnd_err_le (B2R (total_fee a) + B2R f) ltac:(lra)) as K3. rewrite <- V3 in K3.
      split; [split|].
      + apply (settle_about 81 _ _ _ _ (nB + nb)); auto; try lia; [rewrite Rabs_pos_eq; lra| |].
        * apply Rabs_le. rewrite eps_val in *. lra.
        * intros PU. specialize (HB PU). specialize (Hnb PU). rewrite plus_IZR, Rmult_plus_distr_l. apply Rabs_le. rewrite eps_val in *. lra.
      + apply (settle_about 40 _ _ _ _ (nQ - nq - nf)); auto; try lia.
        * apply Rabs_le. rewrite eps_val in *. lra.
        * apply Rabs_le. rewrite eps_val in *. lra.
        * intros PU. specialize (HQ PU). specialize (Hnq PU). specialize (Hnf PU). rewrite !minus_IZR, !Rmult_minus_distr_l. apply Rabs_le. rewrite eps_val in *. lra.
      + apply (settle_about 42 _ _ _ _ (nF + nf)); auto; try lia; [rewrite Rabs_pos_eq; lra| |].
        * apply Rabs_le. rewrite eps_val in *. lra.
        * intros PU. specialize (HF PU). specialize (Hnf PU). rewrite plus_IZR, Rmult_plus_distr_l. apply Rabs_le. rewrite eps_val in *. lra.
  Qed.

  Lemma sub_nneg (q f : f32) : 0 <= rnd (B2R q - B2R f) -> B2R f <= B2R q.
  Proof.
    intros H. destruct (Rle_dec (B2R f) (B2R q)) as [L|L]; [exact L|]. exfalso.
    assert (rnd (B2R q - B2R f) <= rnd 0) by (apply rnd_mono; lra). rewrite rnd_0 in *.
    pose proof (round_plus_neq_0 radix2 fexp32 ZnearestE (B2R q) (- B2R f)) as K.
    apply K; [apply generic_format_B2R|apply generic_format_opp, generic_format_B2R|lra|]. change (B2R q + - B2R f) with (B2R q - B2R f). lra.
  Qed.

  Lemma sell_books fc x p a a' :
    ok_settings a -> bounded40 a -> float_whole a -> ok_fees fc -> exec_price p -> nneg 78 x ->
    @SellBase I fc x p a = Done (true, a') ->
    exists tr, tr_side tr = SELL /\ tr_price tr = B2R p /\ tr_base tr = B2R (@Round I x (base_unit a) : f32) /\
      fair_float fc a tr /\ booked_float a tr a' /\
      tr_quote tr = B2R (quote_of SELL a (@Round I x (base_unit a)) p) /\
      tr_fee tr = B2R (@GetFee I a fc (quote_of SELL a (@Round I x (base_unit a)) p) : f32).
  Proof.
    intros Hset Hb (WB & WQ & WF) Hfc Hp Hx H. pose proof Hset as [Hbu Hqu _ _].
    destruct (SellBase_parts fc x p a a' Hset Hb Hfc Hp Hx H) as
      (q & f & tot & Eq & Ef & Hb1 & Hbp & Ebp & Hq & Hf & Et & Htot & Hbase & Hbal & (s1 & N1 & V1 & B1) & (s2 & N2 & V2 & B2) & (s3 & N3 & V3 & B3)).
    change (@flt I) with f32 in *.
    assert (Wb : float_units (base_unit a) (@Round I x (base_unit a))) by (apply Round_whole; [exact Hbu|apply Hb1]).
    assert (Wq : float_units (quote_unit a) q) by (rewrite Eq; apply Floor_whole; [exact Hqu|rewrite <- Eq; apply Hq]).
    assert (Wf : float_units (quote_unit a) f).
    { destruct (ok_unit_sign _ Hqu). rewrite Ef. apply GetFee_whole; auto. rewrite <- Ef. apply Hf. }
    set (b := @Round I x (base_unit a)) in *.
    exists (Trade SELL (B2R p) (B2R b) (B2R q) (B2R f)). cbn [tr_side tr_price tr_base].
    split; [reflexivity|]. split; [reflexivity|]. split; [reflexivity|].
    pose proof (proj2 (ok_unit_sign _ Hbu)) as PBU. pose proof (proj2 (ok_unit_sign _ Hqu)) as PQU.
    destruct Hb as (Hbb & Hqb & Hfb).
    assert (Pb : 0 <= B2R b) by apply Hb1. assert (Pq : 0 <= B2R q) by apply Hq. assert (Pf : 0 <= B2R f) by apply Hf.
    assert (PB : 0 <= B2R (base_balance a)) by apply Hbb. assert (PQ : 0 <= B2R (quote_balance a)) by apply Hqb.
    assert (PF : 0 <= B2R (total_fee a)) by apply Hfb. assert (Pp : 0 <= B2R p) by (destruct Hp as [_ Hp]; pose proof (bpow_gt_0 radix2 (-27)); lra).
    pose proof (rnd_err_le (B2R b * B2R p) (Rmult_le_pos _ _ Pb Pp)) as Kbp. pose proof (Rmult_le_pos _ _ Pb Pp) as Pbp. rewrite <- Ebp in Kbp.
    pose proof (Floor_err (lm := lm) (as_ := as_) 67 _ (quote_unit a) ltac:(lia) Hbp Hqu) as Kq. cbv zeta in Kq.
    change (@flt I) with f32 in *. rewrite <- Eq in Kq.
    pose proof (GetFee_err 70 a fc q ltac:(lia) Hfc Hqu Hq) as Kf. cbv zeta in Kf. change (@flt I) with f32 in *. rewrite <- Ef in Kf.
    assert (Hqf : B2R f <= B2R q) by (apply sub_nneg; rewrite <- Et; lra).
    pose proof (rnd_err_le (B2R q - B2R f) ltac:(lra)) as Kt. rewrite <- Et in Kt.
    pose proof eta_pos as He. pose proof eta_100 as H100.
    rewrite and_assoc3. split; [|cbn [tr_quote tr_fee quote_of]; rewrite <- Eq, <- Ef; auto].
    split.
    - constructor; cbn [tr_side tr_price tr_base tr_quote tr_fee]; auto.
      + unfold about_down. rewrite tol_val. change (@flt I) with f32 in *. set (X := B2R b * B2R p) in *. rewrite eps_val in *. lra.
      + unfold about_up. rewrite tol_val. change (@flt I) with f32 in *.
        assert (0 <= fee_exact fc (B2R q)).
        { unfold fee_exact. eapply Rle_trans; [|apply Rmax_l]. apply (of_min _ Hfc). }
        set (Z := fee_exact fc (B2R q)) in *. rewrite eps_val in *. lra.
      + rewrite tol_val. change (@flt I) with f32 in *. rewrite eps_val in *. lra.
    - unfold booked_float. cbn [tr_side tr_price tr_base tr_quote tr_fee]. change (@flt I) with f32 in *. rewrite B1, B2, B3.
      destruct (whole_num _ _ Hbu (proj1 Hbb) PB WB) as (nB & HB). destruct (whole_num _ _ Hbu (proj1 Hb1) Pb Wb) as (nb & Hnb).
      destruct (whole_num _ _ Hqu (proj1 Hqb) PQ WQ) as (nQ & HQ). destruct (whole_num _ _ Hqu (proj1 Hq) Pq Wq) as (nq & Hnq).
      destruct (whole_num _ _ Hqu (proj1 Hf) Pf Wf) as (nf & Hnf). destruct (whole_num _ _ Hqu (proj1 Hfb) PF WF) as (nF & HF).
      pose proof (rnd_err_le (B2R (base_balance a) - B2R b) ltac:(lra)) as K1. rewrite <- V1 in K1.
      pose proof (rnd_err_le (B2R (quote_balance a) + B2R tot) ltac:(lra)) as K2. rewrite <- V2 in K2.
      pose proof (rnd_err_le (B2R (total_fee a) + B2R f) ltac:(lra)) as K3. rewrite <- V3 in K3.
      split; [split|].
      + apply (settle_about 40 _ _ _ _ (nB - nb)); auto; try lia; [rewrite Rabs_pos_eq; lra| |].
        * apply Rabs_le. rewrite eps_val in *. lra.
        * intros PU. specialize (HB PU). specialize (Hnb PU). rewrite minus_IZR, Rmult_minus_distr_l. apply Rabs_le. rewrite eps_val in *. lra.
      + apply (settle_about 75 _ _ _ _ (nQ + nq - nf)); auto; try lia.
        * apply Rabs_le. rewrite eps_val in *. lra.
        * apply Rabs_le. rewrite eps_val in *. lra.
        * intros PU. specialize (HQ PU). specialize (Hnq PU). specialize (Hnf PU). rewrite !minus_IZR, plus_IZR, !Rmult_minus_distr_l, Rmult_plus_distr_l. apply Rabs_le. rewrite eps_val in *. lra.
      + apply (settle_about 75 _ _ _ _ (nF + nf)); auto; try lia; [rewrite Rabs_pos_eq; lra| |].
        * apply Rabs_le. rewrite eps_val in *. lra.
        * intros PU. specialize (HF PU). specialize (Hnf PU). rewrite plus_IZR, Rmult_plus_distr_l. apply Rabs_le. rewrite eps_val in *. lra.
  Qed.

  (** ** Exact numbers of units *)
  Lemma count_exact k (s u : f32) (N : Z) :
    (20 <= k <= 97)%Z -> nneg k s -> ok_unit u -> 0 < B2R u -> (0 <= N <= 2 ^ 20 + 1)%Z ->
    Rabs (B2R s - B2R u * IZR N) <= 25 / 64 * B2R u -> units u N (@Round I s u).
  Proof.
    intros Hk Hs Hu PU HN HD. destruct (ok_unit_cases u Hu) as [U0|(_ & Fu & RU)]; [lra|].
    apply nearest_rnd. unfold Round. cbn [fltb fofZ ieee fmul fround fdiv]. destruct (@zero_finite) as [F0 R0].
    rewrite (fltb_intro (f32_of_Z 0) u) by (auto; lra).
    destruct (unit_round_nneg mode_NA k s u Hk Hs Fu RU) as [[Fy _] ->]. split; [exact Fy|].
    pose proof (proj2 Hs) as Ps.
    assert (Hq : 0 <= B2R s / B2R u) by (apply Rmult_le_pos; [lra|]; left; apply Rinv_0_lt_compat; lra).
    pose proof (rnd_err_le _ Hq) as Eq. pose proof eta_pos as He.
    assert (Hetasmall : eta <= / 1024). { unfold eta. change (/ 1024) with (bpow radix2 (-10)). apply bpow_le. lia. }
    assert (HD2 : Rabs (B2R s / B2R u - IZR N) <= 25 / 64).
    { replace (B2R s / B2R u - IZR N) with ((B2R s - B2R u * IZR N) * / B2R u) by (field; lra).
      rewrite Rabs_mult, (Rabs_pos_eq (/ B2R u)) by (left; apply Rinv_0_lt_compat; lra).
      apply Rle_trans with (25 / 64 * B2R u * / B2R u); [apply Rmult_le_compat_r; [left; apply Rinv_0_lt_compat; lra|exact HD]|]. right. field. lra. }
    assert (HNR : 0 <= IZR N <= 1048577) by (split; apply IZR_le; lia). apply Rabs_le_inv in HD2.
    assert (EN : round_mode mode_NA (rnd (B2R s / B2R u)) = N).
    { apply (Znearest_imp (Zle_bool 0)). apply Rabs_lt. rewrite eps_val in *. lra. }
    rewrite EN. reflexivity.
  Qed.

  (** A whole amount. *)
  Lemma units_near u n x : ok_unit u -> 0 < B2R u -> units u n x -> 0 <= B2R x ->
    is_finite x = true /\ (0 <= n)%Z /\
    B2R x - (17 / 16 * eps * B2R x + 17 / 16 * eta) <= B2R u * IZR n <= B2R x + (17 / 16 * eps * B2R x + 17 / 16 * eta).
  Proof.
    intros Hu PU Hx Hr. apply (proj1 (nearest_rnd _ _)) in Hx. destruct Hx as [Fx Ex]. destruct (ok_unit_cases u Hu) as [U0|(_ & Fu & RU)]; [lra|].
    assert (Hn : (0 <= n)%Z).
    { destruct (Z_le_gt_dec 0 n) as [L|L]; [exact L|]. exfalso.
      assert (IZR n <= -1) by (apply (IZR_le n (-1)); lia).
      assert (B2R u * IZR n <= - B2R u) by nra.
      assert (rnd (B2R u * IZR n) <= rnd (- B2R u)) by (apply rnd_mono; assumption).
      rewrite (round_generic radix2 fexp32 ZnearestE (- B2R u)) in * by (apply generic_format_opp, generic_format_B2R). lra. }
    assert (PW : 0 <= B2R u * IZR n) by (apply Rmult_le_pos; [lra|apply (IZR_le 0); exact Hn]).
    pose proof (rnd_err_le _ PW) as K. rewrite <- Ex in K. pose proof eta_pos as He0.
    split; [exact Fx|]. split; [exact Hn|]. set (W := B2R u * IZR n) in *. rewrite eps_val in *. lra.
  Qed.

  Lemma whole_units_of u x : ok_unit u -> 0 < B2R u -> is_finite x = true -> 0 <= B2R x -> float_units u x ->
    exists n, units u n x.
  Proof.
    intros Hu PU Fx Px W. destruct (units_of u x Hu PU Fx Px W) as (n & _ & E & _). exists n. apply nearest_rnd. auto.
  Qed.

  Lemma count_range u N v : 0 < u -> u * IZR N <= (v + 3 / 4) * u -> - (3 / 4) * u <= u * IZR N ->
    forall k, v = IZR k -> (0 <= N <= k)%Z.
  Proof.
    intros Hu H1 H2 k ->.
    assert (A : IZR N < IZR (k + 1)).
    { rewrite plus_IZR. apply Rmult_lt_reg_l with u; [lra|]. lra. }
    assert (B : IZR (-1) < IZR N).
    { apply Rmult_lt_reg_l with u; [lra|]. lra. }
    apply lt_IZR in A. apply lt_IZR in B. lia.
  Qed.

  Lemma buy_counts fc x p (a a' : @account I) nB nQ nF :
    ok_settings a -> bounded40 a -> ok_fees fc -> exec_price p -> nneg 77 x -> B2R x * B2R p <= bpow radix2 87 ->
    @BuyBase I fc x p a = Done (true, a') ->
    has_units a -> holds a nB nQ nF -> few_units a -> few_units a' -> same_settings a a' ->
    exists kb kq kf b q f, units (base_unit a) kb b /\ units (quote_unit a) kq q /\ units (quote_unit a) kf f /\
      b = @Round I x (base_unit a) /\ q = @Ceil I (Bmult mode_NE b p) (quote_unit a) /\ f = @GetFee I a fc q /\
      (0 <= kb)%Z /\ (0 <= kq)%Z /\ (0 <= kf)%Z /\ holds a' (nB + kb) (nQ - kq - kf) (nF + kf).
  Proof.
    intros Hset Hb Hfc Hp Hx Hxp H (PBU & PQU) (WB & WQ & WF) (LB & LQ & LF) (LB' & LQ' & LF') (S1 & S2 & _).
    pose proof Hset as [Hbu Hqu _ _].
    destruct (BuyBase_parts fc x p a a' Hset Hb Hfc Hp Hx Hxp H) as
      (q & f & tot & Eq & Ef & Hb1 & Hbp & Ebp & Hq & Hf & Et & Htot & Hbase & (s1 & N1 & V1 & B1) & (s2 & N2 & V2 & B2) & (s3 & N3 & V3 & B3)).
    change (@flt I) with f32 in *. set (b := @Round I x (base_unit a)) in *.
    assert (Wb : float_units (base_unit a) b) by (apply Round_whole; [exact Hbu|apply Hb1]).
    assert (Wq : float_units (quote_unit a) q) by (rewrite Eq; apply Ceil_whole; [exact Hqu|rewrite <- Eq; apply Hq]).
    assert (Wf : float_units (quote_unit a) f).
    { destruct (ok_unit_sign _ Hqu). rewrite Ef. apply GetFee_whole; auto. rewrite <- Ef. apply Hf. }
    destruct Hb as (Hbb & Hqb & Hfb).
    assert (Pb : 0 <= B2R b) by apply Hb1. assert (Pq : 0 <= B2R q) by apply Hq. assert (Pf : 0 <= B2R f) by apply Hf.
    assert (PB : 0 <= B2R (base_balance a)) by apply Hbb. assert (PQ : 0 <= B2R (quote_balance a)) by apply Hqb.
    assert (PF : 0 <= B2R (total_fee a)) by apply Hfb.
    destruct (whole_units_of _ _ Hbu PBU (proj1 Hb1) Pb Wb) as [kb Hkb].
    destruct (whole_units_of _ _ Hqu PQU (proj1 Hq) Pq Wq) as [kq Hkq].
    destruct (whole_units_of _ _ Hqu PQU (proj1 Hf) Pf Wf) as [kf Hkf].
    destruct (units_near _ _ _ Hbu PBU Hkb Pb) as (_ & Nb & Kb). destruct (units_near _ _ _ Hqu PQU Hkq Pq) as (_ & Nq & Kq).
    destruct (units_near _ _ _ Hqu PQU Hkf Pf) as (_ & Nf & Kf). destruct (units_near _ _ _ Hbu PBU WB PB) as (_ & NB & KB).
    destruct (units_near _ _ _ Hqu PQU WQ PQ) as (_ & NQ & KQ). destruct (units_near _ _ _ Hqu PQU WF PF) as (_ & NF & KF).
    pose proof (rnd_err_le (B2R q + B2R f) ltac:(lra)) as Kt. rewrite <- Et in Kt.
    pose proof (rnd_err_le (B2R (base_balance a) + B2R b) ltac:(lra)) as K1. rewrite <- V1 in K1.
    pose proof (rnd_err_le (B2R (quote_balance a) - B2R tot) ltac:(lra)) as K2. rewrite <- V2 in K2.
    pose proof (rnd_err_le (B2R (total_fee a) + B2R f) ltac:(lra)) as K3. rewrite <- V3 in K3.
    pose proof (Round_err (lm := lm) (as_ := as_) 81 s1 (base_unit a) ltac:(lia) N1 Hbu) as R1. cbv zeta in R1.
    pose proof (Round_err (lm := lm) (as_ := as_) 42 s3 (quote_unit a) ltac:(lia) N3 Hqu) as R3. cbv zeta in R3.
    rewrite S1, S2 in *. change (@flt I) with f32 in *. rewrite <- B1 in R1. rewrite <- B3 in R3.
    change (bpow radix2 20) with 1048576 in *.
    assert (E1 : eta <= B2R (base_unit a) * eps * / 16777216).
    { apply eta_unit. destruct Hbu as [_ [U0|U0]]; lra. }
    assert (E2 : eta <= B2R (quote_unit a) * eps * / 16777216).
    { apply eta_unit. destruct Hqu as [_ [U0|U0]]; lra. }
    pose proof eta_pos as He. rewrite eps_val in *.
    exists kb, kq, kf, b, q, f. repeat (split; [assumption || reflexivity|]).
    unfold holds. rewrite S1, S2. split; [|split].
    - rewrite B1. apply (count_exact 81); auto; try lia.
      + apply (count_range (B2R (base_unit a)) _ 1048577); auto; rewrite plus_IZR, Rmult_plus_distr_l; lra.
      + rewrite plus_IZR, Rmult_plus_distr_l. apply Rabs_le. lra.
    - rewrite B2. apply (count_exact 40); auto; try lia.
      + apply (count_range (B2R (quote_unit a)) _ 1048577); auto; rewrite !minus_IZR, !Rmult_minus_distr_l; lra.
      + rewrite !minus_IZR, !Rmult_minus_distr_l. apply Rabs_le. lra.
    - rewrite B3. apply (count_exact 42); auto; try lia.
      + apply (count_range (B2R (quote_unit a)) _ 1048577); auto; rewrite plus_IZR, Rmult_plus_distr_l; lra.
      + rewrite plus_IZR, Rmult_plus_distr_l. apply Rabs_le. lra.
  Qed.

  Lemma sell_counts fc x p (a a' : @account I) nB nQ nF :
    ok_settings a -> bounded40 a -> ok_fees fc -> exec_price p -> nneg 78 x ->
    @SellBase I fc x p a = Done (true, a') ->
    has_units a -> holds a nB nQ nF -> few_units a -> few_units a' -> same_settings a a' ->
    exists kb kq kf b q f, units (base_unit a) kb b /\ units (quote_unit a) kq q /\ units (quote_unit a) kf f /\
      b = @Round I x (base_unit a) /\ q = @Floor I (Bmult mode_NE b p) (quote_unit a) /\ f = @GetFee I a fc q /\
      (0 <= kb)%Z /\ (0 <= kq)%Z /\ (0 <= kf)%Z /\ holds a' (nB - kb) (nQ + kq - kf) (nF + kf).
  Proof.
    intros Hset Hb Hfc Hp Hx H (PBU & PQU) (WB & WQ & WF) (LB & LQ & LF) (LB' & LQ' & LF') (S1 & S2 & _).
    pose proof Hset as [Hbu Hqu _ _].
    destruct (SellBase_parts fc x p a a' Hset Hb Hfc Hp Hx H) as
      (q & f & tot & Eq & Ef & Hb1 & Hbp & Ebp & Hq & Hf & Et & Htot & Hbase & Hbal & (s1 & N1 & V1 & B1) & (s2 & N2 & V2 & B2) & (s3 & N3 & V3 & B3)).
    change (@flt I) with f32 in *. set (b := @Round I x (base_unit a)) in *.
    assert (Wb : float_units (base_unit a) b) by (apply Round_whole; [exact Hbu|apply Hb1]).
    assert (Wq : float_units (quote_unit a) q) by (rewrite Eq; apply Floor_whole; [exact Hqu|rewrite <- Eq; apply Hq]).
    assert (Wf : float_units (quote_unit a) f).
    { destruct (ok_unit_sign _ Hqu). rewrite Ef. apply GetFee_whole; auto. rewrite <- Ef. apply Hf. }
    destruct Hb as (Hbb & Hqb & Hfb).
    assert (Pb : 0 <= B2R b) by apply Hb1. assert (Pq : 0 <= B2R q) by apply Hq. assert (Pf : 0 <= B2R f) by apply Hf.
    assert (PB : 0 <= B2R (base_balance a)) by apply Hbb. assert (PQ : 0 <= B2R (quote_balance a)) by apply Hqb.
    assert (PF : 0 <= B2R (total_fee a)) by apply Hfb.
    assert (Hqf : B2R f <= B2R q) by (apply sub_nneg; rewrite <- Et; lra).
    destruct (whole_units_of _ _ Hbu PBU (proj1 Hb1) Pb Wb) as [kb Hkb].
    destruct (whole_units_of _ _ Hqu PQU (proj1 Hq) Pq Wq) as [kq Hkq].
    destruct (whole_units_of _ _ Hqu PQU (proj1 Hf) Pf Wf) as [kf Hkf].
    destruct (units_near _ _ _ Hbu PBU Hkb Pb) as (_ & Nb & Kb). destruct (units_near _ _ _ Hqu PQU Hkq Pq) as (_ & Nq & Kq).
    destruct (units_near _ _ _ Hqu PQU Hkf Pf) as (_ & Nf & Kf). destruct (units_near _ _ _ Hbu PBU WB PB) as (_ & NB & KB).
    destruct (units_near _ _ _ Hqu PQU WQ PQ) as (_ & NQ & KQ). destruct (units_near _ _ _ Hqu PQU WF PF) as (_ & NF & KF).
    pose proof (rnd_err_le (B2R q - B2R f) ltac:(lra)) as Kt. rewrite <- Et in Kt.
    pose proof (rnd_err_le (B2R (base_balance a) - B2R b) ltac:(lra)) as K1. rewrite <- V1 in K1.
    pose proof (rnd_err_le (B2R (quote_balance a) + B2R tot) ltac:(lra)) as K2. rewrite <- V2 in K2.
    pose proof (rnd_err_le (B2R (total_fee a) + B2R f) ltac:(lra)) as K3. rewrite <- V3 in K3.
    pose proof (Round_err (lm := lm) (as_ := as_) 75 s2 (quote_unit a) ltac:(lia) N2 Hqu) as R2. cbv zeta in R2.
    pose proof (Round_err (lm := lm) (as_ := as_) 75 s3 (quote_unit a) ltac:(lia) N3 Hqu) as R3. cbv zeta in R3.
    rewrite S1, S2 in *. change (@flt I) with f32 in *. rewrite <- B2 in R2. rewrite <- B3 in R3.
    change (bpow radix2 20) with 1048576 in *.
    assert (E1 : eta <= B2R (base_unit a) * eps * / 16777216).
    { apply eta_unit. destruct Hbu as [_ [U0|U0]]; lra. }
    assert (E2 : eta <= B2R (quote_unit a) * eps * / 16777216).
    { apply eta_unit. destruct Hqu as [_ [U0|U0]]; lra. }
    pose proof eta_pos as He. rewrite eps_val in *.
    exists kb, kq, kf, b, q, f. repeat (split; [assumption || reflexivity|]).
    unfold holds. rewrite S1, S2. split; [|split].
    - rewrite B1. apply (count_exact 40); auto; try lia.
      + apply (count_range (B2R (base_unit a)) _ 1048577); auto; rewrite minus_IZR, Rmult_minus_distr_l; lra.
      + rewrite minus_IZR, Rmult_minus_distr_l. apply Rabs_le. lra.
    - rewrite B2. apply (count_exact 75); auto; try lia.
      + apply (count_range (B2R (quote_unit a)) _ 1048577); auto; rewrite minus_IZR, plus_IZR, Rmult_minus_distr_l, Rmult_plus_distr_l; lra.
      + rewrite minus_IZR, plus_IZR, Rmult_minus_distr_l, Rmult_plus_distr_l. apply Rabs_le. lra.
    - rewrite B3. apply (count_exact 75); auto; try lia.
      + apply (count_range (B2R (quote_unit a)) _ 1048577); auto; rewrite plus_IZR, Rmult_plus_distr_l; lra.
      + rewrite plus_IZR, Rmult_plus_distr_l. apply Rabs_le. lra.
  Qed.
End Book.
