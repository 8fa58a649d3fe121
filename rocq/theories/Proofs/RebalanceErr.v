(** The rounding errors of the rebalancing trader's decisions and amounts. *)
From Coq Require Import Reals ZArith List Lra Lia Bool Psatz.
From Flocq Require Import Core BinarySingleNaN.
From Verif.Model Require Import Outcome Machine Types Account MachineIEEE Traders.
From Verif.Spec Require Import SeriesSpec OrderSpec AccountIEEESpec TraderSpec.
From Verif.Proofs Require Import Base FloatLemmas FloatErr RebalanceFloat ScoreFloat.
Import ListNotations.
Local Open Scope R_scope.

Lemma abs_bound a b : - b <= a <= b -> Rabs a <= b.
Proof. intros. apply Rabs_le. lra. Qed.

Section Core.
  Variables (al ep b p q : R).
  Let x := rnd (b * p).
  Let pv := rnd (x + q).
  Let o1 := rnd (1 - al).
  Let sp := rnd (1 + ep).
  Let sm := rnd (1 - ep).
  Let au := rnd (al * sp).
  Let ad := rnd (al * sm).
  Let be := rnd (x / pv).
  Let m := rnd (o1 * pv).
  Hypotheses (Hal : 0 < al < 1) (Hep : 0 < ep < 1) (Hband : bpow radix2 (-19) <= al * ep)
    (Hb : 0 <= b) (Hp : bpow radix2 (-19) <= p <= bpow radix2 19) (Hq : 0 <= q)
    (Hw : bpow radix2 (-60) <= b * p + q).
  Let V := b * p + q.
  Let S := b * p / V.
  Let tiny := bpow radix2 (-150).

  Let Hp0 : 0 < p.
  Proof. pose proof (bpow_gt_0 radix2 (-19)). lra. Qed.
  Let HV : 0 < V.
  Proof. pose proof (bpow_gt_0 radix2 (-60)). unfold V. lra. Qed.
  Let Hbp : 0 <= b * p.
  Proof. apply Rmult_le_pos; lra. Qed.

  Lemma V_tiny : tiny <= u * V / 1024 /\ tiny * p <= u * V / 1024.
  Proof.
    assert (K : forall k, (k <= -131)%Z -> bpow radix2 k <= u * V / 1024).
    { intros k Hk. apply Rle_trans with (u * bpow radix2 (-60) / 1024).
      - unfold Rdiv. change (/ 1024) with (bpow radix2 (-10)). unfold u. rewrite <- !bpow_plus. apply bpow_le. lia.
      - unfold Rdiv. apply Rmult_le_compat_r; [lra|]. apply Rmult_le_compat_l; [unfold u; apply bpow_ge_0|exact Hw]. }
    split; [apply K; lia|]. apply Rle_trans with (bpow radix2 (-150) * bpow radix2 19).
    - apply Rmult_le_compat_l; [apply bpow_ge_0|apply Hp].
    - rewrite <- bpow_plus. apply K. lia.
  Qed.

  Let T := u * V.
  Let HT : 0 < T /\ u * T <= T / 16000000 /\ u <= / 16777216 /\ 0 < u /\ T <= V / 16777216.
  Proof.
    destruct tiny_u as (_ & _ & U1 & U2). unfold T. assert (0 < u * V) by (apply Rmult_lt_0_compat; lra).
    split; [lra|]. split.
    - apply Rle_trans with (/ 16777216 * (u * V)); [apply Rmult_le_compat_r; lra|lra].
    - split; [lra|]. split; [lra|]. apply Rle_trans with (/ 16777216 * V); [apply Rmult_le_compat_r; lra|lra].
  Qed.

  Lemma e_x : Rabs (x - b * p) <= T + T / 1024.
  Proof.
    pose proof V_tiny as (T1 & _). eapply Rle_trans; [apply (rnd_err_le V); unfold V; lra|].
    fold tiny. unfold T. lra.
  Qed.
  Lemma e_pv : Rabs (pv - V) <= 2 * T + T / 256.
  Proof.
    pose proof V_tiny as (T1 & _). pose proof e_x as E. apply Rabs_le_inv in E. destruct HT as (A1 & A2 & A3 & A4 & A5). fold T in T1.
    assert (X0 : 0 <= x) by (apply rnd_nonneg; lra).
    assert (K := rnd_err_le (V + (T + T / 1024)) (x + q) ltac:(unfold V in *; lra)). fold pv tiny in K. apply Rabs_le_inv in K.
    apply abs_bound. assert (M : (V + (T + T / 1024)) * u <= T + T / 4096).
    { replace ((V + (T + T / 1024)) * u) with (T + (u * T + u * T / 1024)) by (unfold T; field). lra. }
    unfold V in *. lra.
  Qed.
  Lemma e_be : Rabs (be - S) <= 6 * u.
  Proof.
    pose proof (core_be b p q Hb Hp0 Hq Hw) as B. fold x pv be in B.
    pose proof e_x as Ex. pose proof e_pv as Ep. apply Rabs_le_inv in Ex, Ep, B. destruct HT as (A1 & A2 & A3 & A4 & A5).
    assert (S01 : 0 <= S <= 1).
    { unfold S. split; [apply Rmult_le_pos; [exact Hbp|left; apply Rinv_0_lt_compat; exact HV]|].
      apply Rmult_le_reg_r with V; [exact HV|]. unfold Rdiv. rewrite Rmult_assoc, Rinv_l by lra. unfold V. lra. }
    assert (ES : S * V = b * p) by (unfold S; field; lra).
    assert (Ppv : V / 2 <= pv) by lra.
    assert (D : Rabs (x / pv - S) <= 4 * u).
    { replace (x / pv - S) with ((x - b * p - S * (pv - V)) / pv) by (rewrite <- ES; field; lra).
      unfold Rdiv. rewrite Rabs_mult, Rabs_inv, (Rabs_pos_eq pv) by lra.
      apply Rmult_le_reg_r with pv; [lra|]. rewrite Rmult_assoc, Rinv_l, Rmult_1_r by lra.
      assert (P1 : Rabs (S * (pv - V)) <= 2 * T + T / 256).
      { rewrite Rabs_mult, (Rabs_pos_eq S) by lra. rewrite <- (Rmult_1_l (2 * T + T / 256)).
        apply Rmult_le_compat; try lra; [apply Rabs_pos|apply e_pv]. }
      apply Rabs_le_inv in P1.
      assert (P2 : T * 4 - 12 * u * T <= 4 * u * pv).
      { replace (T * 4 - 12 * u * T) with (4 * u * (V - 3 * T)) by (unfold T; ring). apply Rmult_le_compat_l; lra. }
      apply Rabs_le. lra. }
    apply Rabs_le_inv in D. apply Rabs_le. lra.
  Qed.
  Lemma e_au : Rabs (au - al * (1 + ep)) <= 6 * u.
  Proof.
    destruct tiny_u as (T1 & T2 & T3 & T4).
    assert (H1 : Rabs (sp - (1 + ep)) <= 2 * u + tiny) by (apply rnd_err_le; lra).
    apply Rabs_le_inv in H1. fold tiny in T1, T2.
    assert (S' : 0 <= al * sp <= 3) by nra.
    assert (H2 : Rabs (au - al * sp) <= 3 * u + tiny) by (apply rnd_err_le; lra).
    apply Rabs_le_inv in H2. apply Rabs_le. nra.
  Qed.
  Lemma e_ad : Rabs (ad - al * (1 - ep)) <= 6 * u.
  Proof.
    destruct tiny_u as (T1 & T2 & T3 & T4).
    assert (H1 : Rabs (sm - (1 - ep)) <= 1 * u + tiny) by (apply rnd_err_le; lra).
    assert (0 <= sm <= 1) by (split; [apply rnd_nonneg; lra|apply rnd_le_1; lra]).
    apply Rabs_le_inv in H1. fold tiny in T1, T2.
    assert (H2 : Rabs (ad - al * sm) <= 1 * u + tiny) by (apply rnd_err_le; nra).
    apply Rabs_le_inv in H2. apply Rabs_le. nra.
  Qed.

  (** The amount: D is the float difference m - q (or q - m), y the float quotient D / price. *)
  Lemma e_m : Rabs (m - (1 - al) * V) <= 7 * T.
  Proof.
    pose proof (core_m al b p q Hal Hb Hp0 Hq Hw) as M. fold x pv o1 m in M.
    pose proof e_pv as Ep. apply Rabs_le_inv in M, Ep. destruct HT as (A1 & A2 & A3 & A4 & A5).
    assert (P : Rabs ((1 - al) * (pv - V)) <= 2 * T + T / 256).
    { rewrite Rabs_mult, (Rabs_pos_eq (1 - al)) by lra. rewrite <- (Rmult_1_l (2 * T + T / 256)).
      apply Rmult_le_compat; try lra; [apply Rabs_pos|apply e_pv]. }
    apply Rabs_le_inv in P.
    assert (Q : 4 * u * pv <= 4 * T + 12 * (u * T)).
    { replace (4 * T + 12 * (u * T)) with (4 * u * (V + 3 * T)) by (unfold T; ring). apply Rmult_le_compat_l; lra. }
    apply Rabs_le. lra.
  Qed.

  Lemma e_amount z w y : 0 <= w -> Rabs w <= V + 7 * T -> z = rnd w -> y = rnd (z / p) ->
    Rabs (y * p - w) <= 3 * T.
  Proof.
    intros W0 W1 -> ->. rewrite Rabs_pos_eq in W1 by exact W0. destruct HT as (A1 & A2 & A3 & A4 & A5).
    pose proof V_tiny as (T1 & T2). fold T in T1, T2.
    assert (K := rnd_err_le (V + 7 * T) w ltac:(lra)). fold tiny in K.
    replace ((V + 7 * T) * u) with (T + 7 * (u * T)) in K by (unfold T; ring). apply Rabs_le_inv in K.
    set (z := rnd w) in *. assert (Z0 : 0 <= z) by (apply rnd_nonneg; exact W0).
    assert (Z1 : z <= V + 9 * T) by lra.
    destruct (rnd_err (z / p)) as (d & e & E & Hd & He). rewrite E.
    replace ((z / p * (1 + d) + e) * p - w) with ((z - w) + z * d + e * p) by (field; lra).
    assert (E1 : Rabs (z * d) <= T + 9 * (u * T)).
    { rewrite Rabs_mult, (Rabs_pos_eq z) by exact Z0. replace (T + 9 * (u * T)) with ((V + 9 * T) * u) by (unfold T; ring).
      apply Rmult_le_compat; try lra; [apply Rabs_pos|exact Hd]. }
    assert (E2 : Rabs (e * p) <= tiny * p).
    { rewrite Rabs_mult, (Rabs_pos_eq p) by lra. apply Rmult_le_compat_r; [lra|exact He]. }
    apply Rabs_le_inv in E1, E2. apply Rabs_le. lra.
  Qed.

  (** Selling y: the share that remains. *)
  Lemma e_sell y : q <= m -> y = rnd (rnd (m - q) / p) -> Rabs ((b - y) * p / V - al) <= 16 * u.
  Proof.
    intros L Hy. destruct HT as (A1 & A2 & A3 & A4 & A5). pose proof e_m as M. apply Rabs_le_inv in M.
    assert (alV : 0 <= al * V) by (apply Rmult_le_pos; lra).
    pose proof (e_amount _ (m - q) y ltac:(lra) ltac:(rewrite Rabs_pos_eq by lra; unfold V in *; lra) eq_refl Hy) as K.
    apply Rabs_le_inv in K.
    replace ((b - y) * p / V - al) with (((b - y) * p - al * V) / V) by (field; lra).
    unfold Rdiv. rewrite Rabs_mult, Rabs_inv, (Rabs_pos_eq V) by lra.
    apply Rmult_le_reg_r with V; [exact HV|]. rewrite Rmult_assoc, Rinv_l, Rmult_1_r by lra.
    replace (16 * u * V) with (16 * T) by (unfold T; ring). apply Rabs_le. unfold V in *. lra.
  Qed.
  Lemma e_buy y : m <= q -> y = rnd (rnd (q - m) / p) -> Rabs ((b + y) * p / V - al) <= 16 * u.
  Proof.
    intros L Hy. destruct HT as (A1 & A2 & A3 & A4 & A5). pose proof e_m as M. apply Rabs_le_inv in M.
    assert (alV : 0 <= (1 - al) * V) by (apply Rmult_le_pos; lra).
    pose proof (e_amount _ (q - m) y ltac:(lra) ltac:(rewrite Rabs_pos_eq by lra; unfold V in *; lra) eq_refl Hy) as K.
    apply Rabs_le_inv in K.
    replace ((b + y) * p / V - al) with (((b + y) * p - al * V) / V) by (field; lra).
    unfold Rdiv. rewrite Rabs_mult, Rabs_inv, (Rabs_pos_eq V) by lra.
    apply Rmult_le_reg_r with V; [exact HV|]. rewrite Rmult_assoc, Rinv_l, Rmult_1_r by lra.
    replace (16 * u * V) with (16 * T) by (unfold T; ring). apply Rabs_le. unfold V in *. lra.
  Qed.
End Core.

(** ** Limit orders: relative errors *)
Lemma rel_u x : bpow radix2 (-126) <= x -> exists d, Rabs d <= u /\ rnd x = x * (1 + d).
Proof.
  intros H. pose proof (bpow_gt_0 radix2 (-126)). destruct (rel32 x) as (d & Hd & E); [rewrite Rabs_pos_eq by lra; exact H|].
  exists d. split; [|exact E]. unfold u. change (bpow radix2 (-24)) with (/ 16777216). exact Hd.
Qed.

Lemma comb w d1 d2 d5 d4 r : 0 < w <= / 256 -> Rabs d1 <= 201 / 100 * w -> Rabs d2 <= w -> Rabs d5 <= w -> Rabs d4 <= 302 / 100 * w ->
  r * (1 + d4) = (1 + d1) * (1 + d2) * (1 + d5) -> Rabs (r - 1) <= 8 * w.
Proof.
  intros Hw H1 H2 H5 H4 E. apply Rabs_le_inv in H1, H2, H4, H5.
  assert (U : (1 + d1) * (1 + d2) * (1 + d5) <= (1 + 201 / 100 * w) * (1 + w) * (1 + w)).
  { apply Rmult_le_compat; [apply Rmult_le_pos; lra|lra| |lra]. apply Rmult_le_compat; lra. }
  assert (L : (1 - 201 / 100 * w) * (1 - w) * (1 - w) <= (1 + d1) * (1 + d2) * (1 + d5)).
  { apply Rmult_le_compat; [apply Rmult_le_pos; lra|lra| |lra]. apply Rmult_le_compat; lra. }
  assert (w2 : 0 <= w * w <= w / 256) by (split; [nra|]; replace (w / 256) with (w * / 256) by lra; apply Rmult_le_compat_l; lra).
  assert (w3 : 0 <= w * w * w <= w / 256).
  { split; [apply Rmult_le_pos; lra|]. apply Rle_trans with (w * w * 1); [apply Rmult_le_compat_l; lra|lra]. }
  assert (D4 : 0 < 1 + d4) by lra.
  apply Rabs_le. split.
  - enough (1 - 8 * w <= r) by lra. apply Rmult_le_reg_r with (1 + d4); [exact D4|]. rewrite E.
    eapply Rle_trans; [|exact L].
    apply Rle_trans with ((1 - 8 * w) * (1 + 302 / 100 * w)); [apply Rmult_le_compat_l; lra|].
    replace ((1 - 8 * w) * (1 + 302 / 100 * w)) with (1 - 498 / 100 * w - 2416 / 100 * (w * w)) by field.
    replace ((1 - 201 / 100 * w) * (1 - w) * (1 - w)) with (1 - 401 / 100 * w + 502 / 100 * (w * w) - 201 / 100 * (w * w * w)) by field. lra.
  - enough (r <= 1 + 8 * w) by lra. apply Rmult_le_reg_r with (1 + d4); [exact D4|]. rewrite E.
    eapply Rle_trans; [exact U|].
    apply Rle_trans with ((1 + 8 * w) * (1 - 302 / 100 * w)); [|apply Rmult_le_compat_l; lra].
    replace ((1 + 8 * w) * (1 - 302 / 100 * w)) with (1 + 498 / 100 * w - 2416 / 100 * (w * w)) by field.
    replace ((1 + 201 / 100 * w) * (1 + w) * (1 + w)) with (1 + 401 / 100 * w + 502 / 100 * (w * w) + 201 / 100 * (w * w * w)) by field. lra.
Qed.

Section Limits.
  Variables (al s q : R).   (* s = 1 + ep or 1 - ep *)
  Let A := al * s.
  Let fs := rnd s.
  Let fa := rnd (al * fs).
  Let y := rnd (rnd (fa * q) / rnd (1 - fa)).
  Hypotheses (Hal : bpow radix2 (-19) <= al < 1) (Hs : bpow radix2 (-24) <= s <= 2)
    (Hq : bpow radix2 (-20) <= q) (HA : A <= 1 - bpow radix2 (-16)).

  Lemma limit_price_err : fa <= 1 /\ bpow radix2 (-17) <= rnd (1 - fa) /\ Rabs (y - A * q / (1 - A)) <= 8 * u / (1 - A) * (A * q / (1 - A)).
  Proof.
    destruct tiny_u as (_ & _ & U1 & U2).
    pose proof (bpow_gt_0 radix2 (-19)) as P19. pose proof (bpow_gt_0 radix2 (-24)) as P24. pose proof (bpow_gt_0 radix2 (-20)) as P20.
    pose proof (bpow_gt_0 radix2 (-16)) as P16.
    destruct (rel_u s) as (a & Ha & Ea); [eapply Rle_trans; [|apply Hs]; apply bpow_le; lia|]. fold fs in Ea.
    apply Rabs_le_inv in Ha.
    assert (Hfs : bpow radix2 (-25) <= fs).
    { replace (-25)%Z with (-24 + -1)%Z by lia. rewrite bpow_plus. change (bpow radix2 (-1)) with (/ 2). rewrite Ea.
      apply Rmult_le_compat; lra. }
    pose proof (bpow_gt_0 radix2 (-25)) as P25.
    assert (Hafs : bpow radix2 (-44) <= al * fs).
    { replace (-44)%Z with (-19 + -25)%Z by lia. rewrite bpow_plus. apply Rmult_le_compat; lra. }
    destruct (rel_u (al * fs)) as (a2 & Ha2 & Ea2); [eapply Rle_trans; [|exact Hafs]; apply bpow_le; lia|]. fold fa in Ea2.
    apply Rabs_le_inv in Ha2.
    set (d1 := (1 + a) * (1 + a2) - 1).
    assert (Hd1 : Rabs d1 <= 201 / 100 * u).
    { unfold d1. apply Rabs_le. split.
      - assert ((1 - u) * (1 - u) <= (1 + a) * (1 + a2)) by (apply Rmult_le_compat; lra).
        assert (u * u <= u * / 16777216) by (apply Rmult_le_compat_l; lra). nra.
      - assert ((1 + a) * (1 + a2) <= (1 + u) * (1 + u)) by (apply Rmult_le_compat; lra).
        assert (u * u <= u * / 16777216) by (apply Rmult_le_compat_l; lra). lra. }
    assert (Efa : fa = A * (1 + d1)) by (rewrite Ea2, Ea; unfold A, d1; ring).
    assert (A0 : 0 < A) by (unfold A; apply Rmult_lt_0_compat; lra).
    set (dl := 1 - A) in *. assert (Hdl : bpow radix2 (-16) <= dl < 1) by (unfold dl; lra).
    set (w := u / dl).
    assert (Hw0 : 0 < w) by (apply Rmult_lt_0_compat; [lra|apply Rinv_0_lt_compat; lra]).
    assert (Hwdl : w * dl = u) by (unfold w; field; lra).
    assert (Hw1 : w <= / 256).
    { apply Rmult_le_reg_r with dl; [lra|]. rewrite Hwdl. apply Rle_trans with (/ 256 * bpow radix2 (-16)); [|apply Rmult_le_compat_l; lra].
      unfold u. change (/ 256) with (bpow radix2 (-8)). rewrite <- bpow_plus. apply bpow_le. lia. }
    assert (Huw : u <= w) by (rewrite <- Hwdl; rewrite <- (Rmult_1_r w) at 2; apply Rmult_le_compat_l; lra).
    (* 1 - fa *)
    set (t := A * d1). assert (Ht : Rabs t <= 201 / 100 * u).
    { unfold t. rewrite Rabs_mult, (Rabs_pos_eq A) by lra. rewrite <- (Rmult_1_l (201 / 100 * u)).
      apply Rmult_le_compat; try lra; try apply Rabs_pos. }
    assert (E1 : 1 - fa = dl - t) by (rewrite Efa; unfold dl, t; ring).
    assert (Ht' := Rabs_le_inv _ _ Ht).
    assert (Hu16 : u <= bpow radix2 (-16) / 256).
    { unfold u, Rdiv. change (/ 256) with (bpow radix2 (-8)). rewrite <- bpow_plus. apply bpow_le. lia. }
    assert (L1 : bpow radix2 (-17) <= 1 - fa).
    { rewrite E1. replace (-17)%Z with (-16 + -1)%Z by lia. rewrite bpow_plus. change (bpow radix2 (-1)) with (/ 2). lra. }
    destruct (rel_u (1 - fa)) as (a3 & Ha3 & Ea3); [eapply Rle_trans; [|exact L1]; apply bpow_le; lia|].
    set (den := rnd (1 - fa)) in *. pose proof (bpow_gt_0 radix2 (-17)) as P17.
    set (d4 := den / dl - 1).
    assert (E4 : den = dl * (1 + d4)) by (unfold d4; field; lra).
    assert (Hd4 : Rabs d4 <= 302 / 100 * w).
    { unfold d4. replace (den / dl - 1) with ((a3 - t / dl - t / dl * a3)).
      2: { rewrite Ea3, E1. field. lra. }
      assert (K : Rabs (t / dl) <= 201 / 100 * w).
      { unfold Rdiv at 1. rewrite Rabs_mult, Rabs_inv, (Rabs_pos_eq dl) by lra. unfold w. 
        replace (201 / 100 * (u / dl)) with (201 / 100 * u * / dl) by (unfold Rdiv; ring). apply Rmult_le_compat_r; [left; apply Rinv_0_lt_compat; lra|exact Ht]. }
      assert (K2 : Rabs (t / dl * a3) <= 201 / 100 * w * u).
      { rewrite Rabs_mult. apply Rmult_le_compat; auto; apply Rabs_pos. }
      assert (K3 : 201 / 100 * w * u <= 201 / 100 * w * / 16777216) by (apply Rmult_le_compat_l; lra).
      apply Rabs_le_inv in K, K2, Ha3. apply Rabs_le. lra. }
    apply Rabs_le_inv in Hd1.
    (* numerator *)
    assert (Hn : bpow radix2 (-66) <= fa * q).
    { replace (-66)%Z with (-46 + -20)%Z by lia. rewrite bpow_plus. apply Rmult_le_compat; try apply bpow_ge_0; [|lra].
      rewrite Ea2. replace (-46)%Z with (-44 + -2)%Z by lia. rewrite bpow_plus. change (bpow radix2 (-2)) with (/ 4).
      pose proof (bpow_gt_0 radix2 (-44)). apply Rmult_le_compat; lra. }
    destruct (rel_u (fa * q)) as (d2 & Hd2 & E2); [eapply Rle_trans; [|exact Hn]; apply bpow_le; lia|].
    set (num := rnd (fa * q)) in *. assert (Hd2' := Rabs_le_inv _ _ Hd2). pose proof (bpow_gt_0 radix2 (-66)) as P66.
    assert (Hnum : bpow radix2 (-67) <= num).
    { rewrite E2. replace (-67)%Z with (-66 + -1)%Z by lia. rewrite bpow_plus. change (bpow radix2 (-1)) with (/ 2). apply Rmult_le_compat; lra. }
    pose proof (bpow_gt_0 radix2 (-67)) as P67.
    apply Rabs_le_inv in Ha3.
    assert (Hfa0 : 0 < fa) by (rewrite Efa; apply Rmult_lt_0_compat; lra).
    assert (Hden : 0 < den <= 2).
    { rewrite Ea3. split; [apply Rmult_lt_0_compat; lra|]. apply Rle_trans with (1 * 2); [|lra]. apply Rmult_le_compat; lra. }
    split; [lra|]. split; [apply rnd_ge_bpow; [lia|exact L1]|].
    assert (Hquo : bpow radix2 (-68) <= num / den).
    { apply Rmult_le_reg_r with den; [lra|]. unfold Rdiv. rewrite Rmult_assoc, Rinv_l, Rmult_1_r by lra.
      eapply Rle_trans; [|exact Hnum]. replace (-67)%Z with (-68 + 1)%Z by lia. rewrite bpow_plus. change (bpow radix2 1) with 2.
      apply Rmult_le_compat_l; [apply bpow_ge_0|lra]. }
    destruct (rel_u (num / den)) as (d5 & Hd5 & E5); [eapply Rle_trans; [|exact Hquo]; apply bpow_le; lia|].
    change (rnd (num / den)) with y in E5.
    set (P := A * q / dl). assert (HP : 0 < P).
    { unfold P. apply Rmult_lt_0_compat; [apply Rmult_lt_0_compat; lra|apply Rinv_0_lt_compat; lra]. }
    set (r := y / P). assert (Ey : y = P * r) by (unfold r; field; lra).
    assert (D4 : 0 < 1 + d4) by (apply Rabs_le_inv in Hd4; lra).
    assert (Er : r * (1 + d4) = (1 + d1) * (1 + d2) * (1 + d5)).
    { unfold r. rewrite E5, E2, Efa. rewrite E4. unfold P. field. repeat split; lra. }
    assert (K : Rabs (r - 1) <= 8 * w).
    { apply (comb w d1 d2 d5 d4 r); auto; [apply Rabs_le; lra|lra|lra]. }
    rewrite Ey. replace (P * r - P) with ((r - 1) * P) by ring. rewrite Rabs_mult, (Rabs_pos_eq P) by lra.
    apply Rmult_le_compat_r; [lra|]. unfold w in K. replace (8 * u / dl) with (8 * (u / dl)) by (unfold Rdiv; ring). exact K.
  Qed.
End Limits.

Lemma limit_amount_err b ep s : bpow radix2 (-20) <= b -> bpow radix2 (-19) <= ep -> bpow radix2 (-24) <= s <= 2 ->
  Rabs (rnd (rnd (b * ep) / rnd s) - b * ep / s) <= 4 * u * (b * ep / s).
Proof.
  intros Hb He Hs. destruct tiny_u as (_ & _ & U1 & U2).
  pose proof (bpow_gt_0 radix2 (-19)) as P19. pose proof (bpow_gt_0 radix2 (-24)) as P24. pose proof (bpow_gt_0 radix2 (-20)) as P20.
  destruct (rel_u s) as (a & Ha & Ea); [eapply Rle_trans; [|apply Hs]; apply bpow_le; lia|].
  assert (Hn : bpow radix2 (-39) <= b * ep).
  { replace (-39)%Z with (-20 + -19)%Z by lia. rewrite bpow_plus. apply Rmult_le_compat; lra. }
  destruct (rel_u (b * ep)) as (d & Hd & Ed); [eapply Rle_trans; [|exact Hn]; apply bpow_le; lia|].
  apply Rabs_le_inv in Ha, Hd. rewrite Ea, Ed. pose proof (bpow_gt_0 radix2 (-39)) as P39.
  set (N := b * ep) in *. set (Q := N / s).
  assert (Q0 : 0 < Q) by (apply Rmult_lt_0_compat; [lra|apply Rinv_0_lt_compat; lra]).
  set (r0 := (1 + d) / (1 + a)). assert (Er0 : r0 * (1 + a) = 1 + d) by (unfold r0; field; lra).
  assert (H0 : 1 - 5 / 2 * u <= r0 <= 1 + 5 / 2 * u).
  { assert (UU : 0 <= u * u) by (apply Rmult_le_pos; lra). assert (u * u <= u / 16777216) by (unfold Rdiv; apply Rmult_le_compat_l; lra). split.
    - apply Rmult_le_reg_r with (1 + a); [lra|]. rewrite Er0. apply Rle_trans with ((1 - 5 / 2 * u) * (1 + u)); [apply Rmult_le_compat_l; lra|].
      replace ((1 - 5 / 2 * u) * (1 + u)) with (1 - 3 / 2 * u - 5 / 2 * (u * u)) by field. lra.
    - apply Rmult_le_reg_r with (1 + a); [lra|]. rewrite Er0. apply Rle_trans with ((1 + 5 / 2 * u) * (1 - u)); [|apply Rmult_le_compat_l; lra].
      replace ((1 + 5 / 2 * u) * (1 - u)) with (1 + 3 / 2 * u - 5 / 2 * (u * u)) by field. lra. }
  replace (N * (1 + d) / (s * (1 + a))) with (Q * r0) by (unfold Q, r0; field; lra).
  assert (HQ : bpow radix2 (-40) <= Q).
  { unfold Q. apply Rmult_le_reg_r with s; [lra|]. unfold Rdiv. rewrite Rmult_assoc, Rinv_l, Rmult_1_r by lra.
    eapply Rle_trans; [|exact Hn]. replace (-39)%Z with (-40 + 1)%Z by lia. rewrite bpow_plus. change (bpow radix2 1) with 2.
    apply Rmult_le_compat_l; [apply bpow_ge_0|lra]. }
  destruct (rel_u (Q * r0)) as (e & He' & Ee).
  { apply Rle_trans with (bpow radix2 (-41)); [apply bpow_le; lia|]. replace (-41)%Z with (-40 + -1)%Z by lia. rewrite bpow_plus.
    change (bpow radix2 (-1)) with (/ 2). pose proof (bpow_gt_0 radix2 (-40)). apply Rmult_le_compat; lra. }
  rewrite Ee. replace (Q * r0 * (1 + e) - Q) with ((r0 * (1 + e) - 1) * Q) by ring.
  rewrite Rabs_mult, (Rabs_pos_eq Q) by lra. apply Rmult_le_compat_r; [lra|]. apply Rabs_le_inv in He'.
  assert (u * u <= u / 16777216) by (unfold Rdiv; apply Rmult_le_compat_l; lra).
  apply Rabs_le. split.
  - assert ((1 - 5 / 2 * u) * (1 - u) <= r0 * (1 + e)) by (apply Rmult_le_compat; lra).
    replace ((1 - 5 / 2 * u) * (1 - u)) with (1 - 7 / 2 * u + 5 / 2 * (u * u)) in H1 by field. assert (0 <= u * u) by nra. lra.
  - assert (r0 * (1 + e) <= (1 + 5 / 2 * u) * (1 + u)) by (apply Rmult_le_compat; lra).
    replace ((1 + 5 / 2 * u) * (1 + u)) with (1 + 7 / 2 * u + 5 / 2 * (u * u)) in H1 by field. lra.
Qed.

(** ** The orders *)
Section IEEE.
  Context (lm : libm) (as_ : bool).
  Local Notation I := (ieee lm as_).

  Variables (c : @rebalancing_config I) (price base quote : f32).
  Hypotheses (C : ok_rebalancing c) (W : ok_portfolio price base quote).

  Let al := B2R (alpha c : f32).
  Let ep := B2R (epsilon c : f32).
  Let b := B2R base.
  Let p := B2R price.
  Let q := B2R quote.

  Let fx : f32 := Bmult mode_NE base price.
  Let fpv : f32 := Bplus mode_NE fx quote.
  Let fo1 : f32 := Bminus mode_NE (f32_of_Z 1) (alpha c).
  Let fsp : f32 := Bplus mode_NE (f32_of_Z 1) (epsilon c).
  Let fsm : f32 := Bminus mode_NE (f32_of_Z 1) (epsilon c).
  Let fau : f32 := Bmult mode_NE (alpha c) fsp.
  Let fad : f32 := Bmult mode_NE (alpha c) fsm.
  Let fbe : f32 := Bdiv mode_NE fx fpv.
  Let fm : f32 := Bmult mode_NE fo1 fpv.

  Let HPr : bpow radix2 (-19) <= p <= bpow radix2 19.
  Proof. apply (ok_p_price _ _ _ W). Qed.
  Let HP0 : 0 < p.
  Proof. pose proof (bpow_gt_0 radix2 (-19)). lra. Qed.
  Let HB : 0 <= b.
  Proof. apply (ok_p_base _ _ _ W). Qed.
  Let HQ : 0 <= q.
  Proof. apply (ok_p_quote _ _ _ W). Qed.
  Let HAl : 0 < al < 1.
  Proof. apply (ok_alpha _ C). Qed.
  Let HEp : 0 < ep < 1.
  Proof. apply (ok_epsilon _ C). Qed.
  Let HBand : bpow radix2 (-19) <= al * ep.
  Proof. apply (ok_band _ C). Qed.
  Let HWorth : bpow radix2 (-60) <= b * p + q.
  Proof. apply (ok_p_worth _ _ _ W). Qed.

  Lemma orders_unfold : @rebalancing_orders I c price base quote =
    if Bltb fau fbe then [@market_order I SELL (Bdiv mode_NE (Bminus mode_NE fm quote) price)]
    else if Bltb fbe fad then [@market_order I BUY (Bdiv mode_NE (Bminus mode_NE quote fm) price)]
    else if Bltb (@flit I 1 1000000) base && Bltb (@flit I 1 1000000) quote then
      (if Bltb fau (f32_of_Z 1) then
        let sell_price := Bdiv mode_NE (Bmult mode_NE fau quote) (Bminus mode_NE (f32_of_Z 1) fau) in
        if Bltb price sell_price && Bltb sell_price (Bmult mode_NE (f32_of_Z 100) price) then
          [@limit_order I SELL (Bdiv mode_NE (Bmult mode_NE base (epsilon c)) fsp) sell_price]
        else []
       else []) ++
      (let buy_price := Bdiv mode_NE (Bmult mode_NE fad quote) (Bminus mode_NE (f32_of_Z 1) fad) in
       if Bltb buy_price price && Bltb (Bdiv mode_NE price (f32_of_Z 100)) buy_price then
         [@limit_order I BUY (Bdiv mode_NE (Bmult mode_NE base (epsilon c)) fsm) buy_price]
       else [])
    else [].
  Proof. reflexivity. Qed.

  Lemma cmp_lt (x y : f32) j k : nneg j x -> nneg k y -> Bltb x y = Rlt_bool (B2R x) (B2R y).
  Proof. intros Hx Hy. rewrite Bltb_ext by (eapply nneg_num; eauto). rewrite (nneg_ext j x Hx), (nneg_ext k y Hy). reflexivity. Qed.

  Lemma u16 : 16 * u = / 2 ^ 20.
  Proof. unfold u. change (bpow radix2 (-24)) with (/ 16777216). lra. Qed.

  Lemma sell_iff : Bltb fau fbe = Rlt_bool (B2R fau) (B2R fbe).
  Proof. eapply cmp_lt; [apply f_au; exact C|apply (f_be price base quote); exact W]. Qed.
  Lemma buy_iff : Bltb fbe fad = Rlt_bool (B2R fbe) (B2R fad).
  Proof. eapply cmp_lt; [apply (f_be price base quote); exact W|apply f_ad; exact C]. Qed.

  Lemma sides : Rabs (B2R fbe - base_share b q p) <= 6 * u /\
    Rabs (B2R fau - al * (1 + ep)) <= 6 * u /\ Rabs (B2R fad - al * (1 - ep)) <= 6 * u.
  Proof.
    split; [|split].
    - destruct (f_be price base quote W) as (_ & E). unfold fbe, fpv, fx. rewrite E. unfold base_share. apply (e_be b p q); auto.
    - destruct (f_au lm as_ c C) as (_ & E). unfold fau, fsp. rewrite E. apply (e_au al ep b p q); auto.
    - destruct (f_ad lm as_ c C) as (_ & E). unfold fad, fsm. rewrite E. apply (e_ad al ep b p q); auto.
  Qed.

  Let os := @rebalancing_orders I c price base quote.

  Lemma market_sell_forced : al * (1 + ep) + / 2 ^ 20 < base_share b q p -> exists x, os = [@market_order I SELL x].
  Proof.
    intros H. destruct sides as (S1 & S2 & _). apply Rabs_le_inv in S1, S2. rewrite <- u16 in H. destruct tiny_u as (_ & _ & U1 & _).
    unfold os. rewrite orders_unfold, sell_iff, Rlt_bool_true by lra. eexists. reflexivity.
  Qed.
  Lemma market_buy_forced : base_share b q p < al * (1 - ep) - / 2 ^ 20 -> exists x, os = [@market_order I BUY x].
  Proof.
    intros H. destruct sides as (S1 & S2 & S3). apply Rabs_le_inv in S1, S2, S3. rewrite <- u16 in H. destruct tiny_u as (_ & _ & U1 & _).
    unfold os. rewrite orders_unfold, sell_iff, buy_iff. pose proof (bpow_gt_0 radix2 (-19)).
    rewrite Rlt_bool_false, Rlt_bool_true by lra. eexists. reflexivity.
  Qed.

  Lemma no_market (l1 l2 : list (@order I)) sd x :
    Forall (fun o => o_type o = Some LIMIT) l1 -> Forall (fun o => o_type o = Some LIMIT) l2 -> l1 ++ l2 <> [@market_order I sd x].
  Proof.
    intros H1 H2 E. assert (H : Forall (fun o => o_type o = Some LIMIT) (l1 ++ l2)) by (apply Forall_app; auto).
    rewrite E in H. apply Forall_cons_iff in H as (H & _). discriminate.
  Qed.

  Lemma market_inv sd x : os = [@market_order I sd x] ->
    (sd = SELL /\ B2R fau < B2R fbe /\ x = Bdiv mode_NE (Bminus mode_NE fm quote) price) \/
    (sd = BUY /\ B2R fbe < B2R fad /\ x = Bdiv mode_NE (Bminus mode_NE quote fm) price).
  Proof.
    unfold os. rewrite orders_unfold, sell_iff, buy_iff. intros H.
    destruct (Rlt_bool_spec (B2R fau) (B2R fbe)) as [L|L].
    { left. injection H as -> ->. auto. }
    destruct (Rlt_bool_spec (B2R fbe) (B2R fad)) as [L2|L2].
    { right. injection H as -> ->. auto. }
    exfalso. destruct (_ && _) in H; [|discriminate]. revert H. apply no_market.
    - destruct (Bltb _ _); [|constructor]. cbv zeta. destruct (_ && _); constructor; [reflexivity|constructor].
    - cbv zeta. destruct (_ && _); constructor; [reflexivity|constructor].
  Qed.

  Lemma after_sell x : b * p / (b * p + q) = b * p / (b * p + q) -> base_share (b - x) (q + x * p) p = (b - x) * p / (b * p + q).
  Proof. intros _. unfold base_share. f_equal. ring. Qed.

  Lemma market_sell (x : f32) : os = [@market_order I SELL x] ->
    al * (1 + ep) - / 2 ^ 20 < base_share b q p /\ is_finite x = true /\ 0 < B2R x /\
    Rabs (base_share (b - B2R x) (q + B2R x * p) p - al) <= / 2 ^ 20.
  Proof.
    intros H. destruct (market_inv _ _ H) as [(_ & L & Ex)|(E & _)]; [|discriminate]. clear H.
    destruct sides as (S1 & S2 & _). apply Rabs_le_inv in S1, S2. destruct tiny_u as (_ & _ & U1 & _). rewrite <- u16.
    split; [lra|].
    destruct (f_m lm as_ c price base quote C W) as (Nm & Em).
    change (nneg 60 fm) in Nm. change (B2R fm = rnd (rnd (1 - al) * rnd (rnd (b * p) + q))) in Em.
    destruct (f_au lm as_ c C) as (_ & Ea). destruct (f_be price base quote W) as (_ & Eb).
    pose proof (core_sell al ep b p q HAl HEp HBand HB HP0 HQ HWorth) as K.
    unfold fau, fsp in L. rewrite Ea in L. unfold fbe, fpv, fx in L. rewrite Eb in L. specialize (K L).
    rewrite <- Em in K. pose proof (bpow_gt_0 radix2 (-81)) as P81.
    assert (Nq : nneg 60 quote) by (apply (nneg_weaken 40); [lia|apply W]).
    destruct (f_amount price base quote W fm quote Nm Nq K) as (Fx & Px). rewrite <- Ex in Fx, Px.
    split; [exact Fx|]. split; [exact Px|].
    destruct (f_price price base quote W) as (Np & Lp).
    destruct (Bminus_nneg 60 fm quote ltac:(lia) Nm Nq ltac:(fold q; lra)) as (N1 & E1).
    destruct (Bdiv_nneg 19 60 (Bminus mode_NE fm quote) price ltac:(lia) N1 (proj1 Np) Lp) as (N2 & E2).
    unfold base_share. replace ((b - B2R x) * p + (q + B2R x * p)) with (b * p + q) by ring.
    apply (e_sell al b p q HAl HB HPr HQ HWorth).
    - rewrite <- Em. lra.
    - rewrite Ex, E2, E1, Em. reflexivity.
  Qed.

  Lemma market_buy (x : f32) : os = [@market_order I BUY x] ->
    base_share b q p < al * (1 - ep) + / 2 ^ 20 /\ is_finite x = true /\ 0 < B2R x /\
    Rabs (base_share (b + B2R x) (q - B2R x * p) p - al) <= / 2 ^ 20.
  Proof.
    intros H. destruct (market_inv _ _ H) as [(E & _)|(_ & L & Ex)]; [discriminate|]. clear H.
    destruct sides as (S1 & _ & S2). apply Rabs_le_inv in S1, S2. destruct tiny_u as (_ & _ & U1 & _). rewrite <- u16.
    split; [lra|].
    destruct (f_m lm as_ c price base quote C W) as (Nm & Em).
    change (nneg 60 fm) in Nm. change (B2R fm = rnd (rnd (1 - al) * rnd (rnd (b * p) + q))) in Em.
    destruct (f_ad lm as_ c C) as (_ & Ea). destruct (f_be price base quote W) as (_ & Eb).
    pose proof (core_buy al ep b p q HAl HEp HBand HB HP0 HQ HWorth) as K.
    unfold fad, fsm in L. rewrite Ea in L. unfold fbe, fpv, fx in L. rewrite Eb in L. specialize (K L).
    rewrite <- Em in K. pose proof (bpow_gt_0 radix2 (-81)) as P81.
    assert (Nq : nneg 60 quote) by (apply (nneg_weaken 40); [lia|apply W]).
    destruct (f_amount price base quote W quote fm Nq Nm K) as (Fx & Px). rewrite <- Ex in Fx, Px.
    split; [exact Fx|]. split; [exact Px|].
    destruct (f_price price base quote W) as (Np & Lp).
    destruct (Bminus_nneg 60 quote fm ltac:(lia) Nq Nm ltac:(fold q; lra)) as (N1 & E1).
    destruct (Bdiv_nneg 19 60 (Bminus mode_NE quote fm) price ltac:(lia) N1 (proj1 Np) Lp) as (N2 & E2).
    unfold base_share. replace ((b + B2R x) * p + (q - B2R x * p)) with (b * p + q) by ring.
    apply (e_buy al b p q HAl HB HPr HQ HWorth).
    - rewrite <- Em. lra.
    - rewrite Ex, E2, E1, Em. reflexivity.
  Qed.

  (** The limit orders. *)
  Let HAl19 : bpow radix2 (-19) <= al.
  Proof. eapply Rle_trans; [exact HBand|]. rewrite <- (Rmult_1_r al) at 2. apply Rmult_le_compat_l; lra. Qed.
  Let HEp19 : bpow radix2 (-19) <= ep.
  Proof. eapply Rle_trans; [exact HBand|]. rewrite <- (Rmult_1_l ep) at 2. apply Rmult_le_compat_r; lra. Qed.
  Let Hsm : bpow radix2 (-24) <= 1 - ep <= 2.
  Proof. split; [|lra]. pose proof (below_1 (epsilon c) (proj2 HEp)). fold ep in H. lra. Qed.
  Let Hsp : bpow radix2 (-24) <= 1 + ep <= 2.
  Proof. split; [|lra]. apply Rle_trans with (bpow radix2 0); [apply bpow_le; lia|]. cbn. lra. Qed.

  Lemma amount_near (fs : f32) s : nneg 1 fs -> bpow radix2 (-24) <= B2R fs -> B2R fs = rnd s -> bpow radix2 (-24) <= s <= 2 ->
    Bltb (@flit I 1 1000000) base = true ->
    let x := Bdiv mode_NE (Bmult mode_NE base (epsilon c)) fs in
    is_finite x = true /\ Rabs (B2R x - b * ep / s) <= 4 * u * (b * ep / s).
  Proof.
    intros Ns Ls Es Hs Hb x. destruct lit_ge with (lm := lm) (as_ := as_) as (HL & LL).
    pose proof (lt_B2R _ base 0 40 HL (ok_p_base _ _ _ W) Hb) as Lb. fold b in Lb.
    assert (Ne : nneg 0 (epsilon c)) by (split; [apply (ok_epsilon _ C)|fold ep; cbn [bpow]; lra]).
    destruct (Bmult_nneg 40 0 base (epsilon c) ltac:(lia) (ok_p_base _ _ _ W) Ne) as (N1 & E1).
    destruct (Bdiv_nneg 24 40 (Bmult mode_NE base (epsilon c)) fs ltac:(lia) N1 (proj1 Ns) Ls) as (N2 & E2).
    split; [apply N2|]. unfold x. rewrite E2, E1, Es. apply limit_amount_err; auto. lra.
  Qed.

  Lemma price_near (fs : f32) s : let A := al * s in
    nneg 1 fs -> B2R fs = rnd s -> bpow radix2 (-24) <= s <= 2 -> A <= 1 - bpow radix2 (-16) ->
    Bltb (@flit I 1 1000000) quote = true ->
    let fa := Bmult mode_NE (alpha c) fs in
    let y := Bdiv mode_NE (Bmult mode_NE fa quote) (Bminus mode_NE (f32_of_Z 1) fa) in
    is_finite y = true /\ Rabs (B2R y - A * q / (1 - A)) <= 8 * u / (1 - A) * (A * q / (1 - A)).
  Proof.
    intros A Ns Es Hs HA Hq fa y. destruct lit_ge with (lm := lm) (as_ := as_) as (HL & LL).
    pose proof (lt_B2R _ quote 0 40 HL (ok_p_quote _ _ _ W) Hq) as Lq. fold q in Lq.
    assert (Na : nneg 0 (alpha c)) by (split; [apply (ok_alpha _ C)|fold al; cbn [bpow]; lra]).
    destruct (Bmult_nneg 0 1 (alpha c) fs ltac:(lia) Na Ns) as (N1 & E1). fold fa in N1, E1. rewrite Es in E1. fold al in E1.
    destruct (limit_price_err al s q ltac:(lra) Hs ltac:(lra) HA) as (K1 & K2 & K3).
    rewrite <- E1 in K1, K2, K3.
    destruct (Bmult_nneg 1 40 fa quote ltac:(lia) N1 (ok_p_quote _ _ _ W)) as (N2 & E2). fold q in E2.
    destruct (ofZ_finite 1 ltac:(lia)) as [F1 V1].
    assert (No : nneg 1 (f32_of_Z 1)) by (split; [exact F1|rewrite V1; cbn; lra]).
    destruct (Bminus_nneg 1 (f32_of_Z 1) fa ltac:(lia) No N1 ltac:(rewrite V1; lra)) as (N3 & E3). rewrite V1 in E3.
    rewrite <- E3 in K2.
    destruct (Bdiv_nneg 17 41 (Bmult mode_NE fa quote) (Bminus mode_NE (f32_of_Z 1) fa) ltac:(lia) N2 (proj1 N3) K2) as (N4 & E4).
    split; [apply N4|]. unfold y. rewrite E4, E2, E3. exact K3.
  Qed.

  Lemma limit_near sd (x y : f32) : In (@limit_order I sd x y) os ->
    let s := match sd with SELL => 1 + ep | BUY => 1 - ep end in
    let A := al * s in
    is_finite x = true /\ Rabs (B2R x - b * ep / s) <= 4 * u * (b * ep / s) /\
    (A <= 1 - bpow radix2 (-16) ->
     is_finite y = true /\ Rabs (B2R y - A * q / (1 - A)) <= 8 * u / (1 - A) * (A * q / (1 - A))).
  Proof.
    unfold os. rewrite orders_unfold. intros H.
    destruct (Bltb fau fbe); [destruct H as [H|[]]; discriminate|].
    destruct (Bltb fbe fad); [destruct H as [H|[]]; discriminate|].
    destruct (Bltb _ base) eqn:Qb; cbn [andb] in H; [|destruct H].
    destruct (Bltb _ quote) eqn:Qq; [|destruct H].
    destruct (f_sp lm as_ c C) as (Nsp & Esp & Lsp). fold fsp in Nsp, Esp, Lsp.
    destruct (f_sm lm as_ c C) as (Nsm & Esm & Lsm). fold fsm in Nsm, Esm, Lsm.
    apply in_app_or in H as [H|H].
    - destruct (Bltb fau _); [|destruct H]. cbv zeta in H. destruct (_ && _) in H; [|destruct H]. destruct H as [H|[]].
      injection H as <- <- <-. cbv zeta.
      destruct (amount_near fsp (1 + ep)) as (F1 & B1); auto.
      { eapply Rle_trans; [|exact Lsp]. change 1 with (bpow radix2 0). apply bpow_le. lia. }
      split; [exact F1|]. split; [exact B1|]. intros HA. apply (price_near fsp (1 + ep)); auto.
    - cbv zeta in H. destruct (_ && _) in H; [|destruct H]. destruct H as [H|[]].
      injection H as <- <- <-. cbv zeta.
      assert (Nsm1 : nneg 1 fsm) by (apply (nneg_weaken 0); [lia|exact Nsm]).
      destruct (amount_near fsm (1 - ep)) as (F1 & B1); auto.
      split; [exact F1|]. split; [exact B1|]. intros HA. apply (price_near fsm (1 - ep)); auto.
  Qed.
End IEEE.
