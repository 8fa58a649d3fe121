(** How far the float RSI can be from the exact one. *)
From Coq Require Import Reals ZArith Bool List Lia Lra.
From Flocq Require Import Core BinarySingleNaN.
From Verif.Model Require Import Outcome Machine Types Indicators MachineIEEE.
From Verif.Spec Require Import SeriesSpec IndicatorSpec DriftSpec RsiSpec.
From Verif.Proofs Require Import Base FloatLemmas FloatErr SeriesProofs StochProofs DriftProofs EmaDrift RsiProofs.
Import ListNotations.
Local Open Scope R_scope.

(** ** The exact modified average *)
Lemma inv_m_range m : (1 <= m)%Z -> 1 <= IZR m /\ 0 < 1 / IZR m <= 1.
Proof.
  intros Hm. assert (H : 1 <= IZR m) by (apply IZR_le; lia). split; [exact H|].
  unfold Rdiv. rewrite Rmult_1_l. split; [apply Rinv_0_lt_compat; lra|].
  rewrite <- Rinv_1. apply Rinv_le_contravar; lra.
Qed.

Lemma Rmma_step_range n j v e (P Q : R) : (1 <= n)%Z -> (1 <= j)%nat -> P <= v <= Q -> P <= e <= Q ->
  let m := IZR (Z.min (Z.of_nat j) n) in P <= v / m + (1 - 1 / m) * e <= Q.
Proof.
  intros Hn Hj Hv He m. destruct (inv_m_range (Z.min (Z.of_nat j) n) ltac:(lia)) as (_ & H). fold m in H.
  replace (v / m) with (1 / m * v) by (unfold Rdiv; ring). set (w := 1 / m) in *. split; nra.
Qed.

Lemma Rmma_fold_range n (P Q : R) vs : (1 <= n)%Z -> Forall (fun v => P <= v <= Q) vs -> forall j e, (1 <= j)%nat -> P <= e <= Q ->
  P <= fold_left (fun e iv => let m := IZR (Z.min (Z.of_nat (fst iv)) n) in snd iv / m + (1 - 1 / m) * e)
              (combine (seq j (length vs)) vs) e <= Q.
Proof.
  intros Hn. induction vs as [|v vs IH]; intros HF j e Hj He; [exact He|]. apply Forall_cons_iff in HF as (Hv & HF).
  cbn [length seq combine fold_left fst snd]. apply IH; [exact HF|lia|]. apply Rmma_step_range; assumption.
Qed.

Lemma Rmma_range n P Q vs : (1 <= n)%Z -> P <= 0 <= Q -> Forall (fun v => P <= v <= Q) vs -> P <= Rmma n vs <= Q.
Proof.
  intros Hn H0 HF. destruct vs as [|v vs]; [exact H0|]. apply Forall_cons_iff in HF as (Hv & HF).
  cbn [Rmma]. apply Rmma_fold_range; auto.
Qed.

Lemma Rmma_inputs n D xs ys : (1 <= n)%Z -> 0 <= D -> Forall2 (fun x y => Rabs (x - y) <= D) xs ys -> Rabs (Rmma n xs - Rmma n ys) <= D.
Proof.
  intros Hn HD H. destruct H as [|x y xs ys Hxy H]; [cbn [Rmma]; rewrite Rminus_0_r, Rabs_R0; exact HD|].
  cbn [Rmma]. assert (Hj : (1 <= 2)%nat) by lia. revert x y Hxy Hj. generalize 2%nat.
  induction H as [|a b xs ys Hab H IH]; intros j x y Hxy Hj; [exact Hxy|].
  cbn [length seq combine fold_left fst snd]. apply IH; [|lia].
  destruct (inv_m_range (Z.min (Z.of_nat j) n) ltac:(lia)) as (_ & Hw).
  set (m := IZR (Z.min (Z.of_nat j) n)) in *.
  replace (a / m + (1 - 1 / m) * x - (b / m + (1 - 1 / m) * y)) with (1 / m * (a - b) + (1 - 1 / m) * (x - y)) by (unfold Rdiv; ring).
  eapply Rle_trans; [apply Rabs_triang|]. rewrite !Rabs_mult, (Rabs_pos_eq (1 / m)), (Rabs_pos_eq (1 - 1 / m)) by lra.
  set (w := 1 / m) in *. replace D with (w * D + (1 - w) * D) by ring.
  apply Rplus_le_compat; apply Rmult_le_compat_l; lra.
Qed.

Section RsiFloat.
  Context (lm : libm) (as_ : bool).
  Local Notation I := (ieee lm as_).

  Lemma mma_weight m : (1 <= m <= 2 ^ 20)%Z ->
    let w := Bdiv mode_NE (f32_of_Z 1) (f32_of_Z m) in
    is_finite w = true /\ 0 <= B2R w <= 1 /\ Rabs (B2R w - 1 / IZR m) <= u24 * (1 / IZR m) + bpow radix2 (-150).
  Proof.
    intros Hm w. destruct (weight_ok m ltac:(lia)) as (Fw & Hw). split; [exact Fw|]. split; [exact Hw|].
    destruct (ofZ_finite 1 ltac:(lia)) as (F1 & R1). destruct (ofZ_finite m ltac:(lia)) as (Fm & Rm).
    destruct (inv_m_range m ltac:(lia)) as (H1 & H2).
    pose proof (Bdiv_correct 24 128 _ _ mode_NE (f32_of_Z 1) (f32_of_Z m)) as K. rewrite Rm, R1 in K. specialize (K ltac:(lra)).
    cbn [round_mode] in K. rewrite (no_overflow _ 0) in K; [|lia|rewrite Rabs_pos_eq by lra; change (bpow radix2 0) with 1; lra].
    destruct K as (KR & _). fold w in KR. rewrite KR. apply rnd_abs_err. rewrite Rabs_pos_eq; lra.
  Qed.

  (** The float modified average against the exact one of the same values. *)
  Lemma mma_float k n (vs : list f32) : (-100 <= k <= 100)%Z -> (1 <= n <= 2 ^ 20)%Z -> Forall (bnd k) vs ->
    is_finite (@mma_of I n vs : f32) = true /\
    Rabs (B2R (@mma_of I n vs : f32) - Rmma n (map B2R vs)) <= 12 * u24 * bpow radix2 k * IZR n.
  Proof.
    intros Hk Hn HF. pose proof (bpow_gt_0 radix2 k) as HB.
    assert (Hu : 0 < u24) by (unfold u24; lra).
    assert (HN1 : 1 <= IZR n) by (apply IZR_le; lia).
    assert (HN2 : IZR n <= 1048576) by (apply IZR_le; lia).
    destruct vs as [|v vs].
    { destruct (ofZ_finite 0 ltac:(lia)) as (F0 & R0). split; [exact F0|]. cbn [map Rmma mma_of].
      change (@fofZ I 0) with (f32_of_Z 0). rewrite R0, Rminus_0_r, Rabs_R0.
      apply Rmult_le_pos; [|lra]. apply Rmult_le_pos; lra. }
    apply Forall_cons_iff in HF as (Hv & HF). cbn [map Rmma mma_of]. rewrite map_length.
    set (c := 12 * u24 * bpow radix2 k). assert (Hc : 0 <= c) by (unfold c; apply Rmult_le_pos; lra).
    assert (G : forall (vs : list f32) j (e : f32) X, Forall (bnd k) vs -> (2 <= j)%nat -> is_finite e = true -> Rabs X <= bpow radix2 k ->
      Rabs (B2R e - X) <= c * IZR (Z.min (Z.of_nat j - 1) n) ->
      is_finite (fold_left (fun (e : f32) (iv : nat * f32) => let w := @fdiv I (@fofZ I 1) (@fofZ I (Z.min (Z.of_nat (fst iv)) n)) in
            @fadd I (@fmul I w (snd iv)) (@fmul I (@fsub I (@fofZ I 1) w) e)) (combine (seq j (length vs)) vs) e) = true /\
      Rabs (B2R (fold_left (fun (e : f32) (iv : nat * f32) => let w := @fdiv I (@fofZ I 1) (@fofZ I (Z.min (Z.of_nat (fst iv)) n)) in
            @fadd I (@fmul I w (snd iv)) (@fmul I (@fsub I (@fofZ I 1) w) e)) (combine (seq j (length vs)) vs) e)
            - fold_left (fun e iv => let m := IZR (Z.min (Z.of_nat (fst iv)) n) in snd iv / m + (1 - 1 / m) * e)
                (combine (seq j (length vs)) (map B2R vs)) X) <= c * IZR n).
    { clear v vs Hv HF. induction vs as [|v vs IH]; intros j e X HF Hj Fe HX He.
      - split; [exact Fe|]. eapply Rle_trans; [exact He|]. apply Rmult_le_compat_l; [exact Hc|]. apply IZR_le. lia.
      - apply Forall_cons_iff in HF as (Hv & HF). cbn [length seq combine fold_left map fst snd].
        cbn [fadd fmul fsub fdiv fofZ ieee]. set (mz := Z.min (Z.of_nat j) n) in *.
        destruct (mma_weight mz ltac:(unfold mz; lia)) as (Fw & Hw & Ew).
        destruct (inv_m_range mz ltac:(unfold mz; lia)) as (Hm1 & Hm2).
        assert (Hm3 : IZR mz <= 1048576) by (apply IZR_le; unfold mz; lia).
        assert (He1 : Rabs (B2R e - X) <= c * IZR mz).
        { eapply Rle_trans; [exact He|]. apply Rmult_le_compat_l; [exact Hc|]. apply IZR_le. unfold mz. lia. }
        assert (HE : 0 <= c * IZR mz <= bpow radix2 k).
        { split; [apply Rmult_le_pos; lra|]. apply Rle_trans with (c * 1048576); [apply Rmult_le_compat_l; lra|]. unfold c, u24. lra. }
        set (w := Bdiv mode_NE (f32_of_Z 1) (f32_of_Z mz)) in *.
        destruct (ema_step k w v e X (c * IZR mz) Hk Fw Hw Hv Fe HX HE He1) as (Fe' & He').
        assert (HX' : Rabs (B2R v / IZR mz + (1 - 1 / IZR mz) * X) <= bpow radix2 k).
        { apply Rabs_le. apply Rmma_step_range; [lia|lia| |]; apply Rabs_le_inv; [apply Hv|exact HX]. }
        apply IH; [exact HF|lia|exact Fe'|exact HX'|].
        replace (Z.min (Z.of_nat (S j) - 1) n) with mz by (unfold mz; lia).
        change (@fmul I) with (@Bmult 24 128 eq_refl eq_refl mode_NE).
        set (e' := Bplus mode_NE (Bmult mode_NE w v) (Bmult mode_NE (Bminus mode_NE (f32_of_Z 1) w) e)) in *.
        change (Bplus mode_NE (Bmult mode_NE w v) (Bmult mode_NE (Bminus mode_NE (f32_of_Z 1) w) e)) with e'.
        pose proof (eta_small k ltac:(lia)) as Eta0. pose proof (eta_small 0 ltac:(lia)) as Eta1.
        change (bpow radix2 0) with 1 in Eta1.
        set (eta := bpow radix2 (-150)) in *. set (B := bpow radix2 k) in *.
        assert (Heta : 0 < eta) by apply bpow_gt_0.
        set (W := B2R w) in *. set (m := IZR mz) in *. set (V := B2R v) in *.
        assert (HVX : Rabs (V - X) <= 2 * B).
        { unfold Rminus. eapply Rle_trans; [apply Rabs_triang|]. rewrite Rabs_Ropp. destruct Hv as (_ & Hv). fold V B in Hv. lra. }
        assert (EW : Rabs ((W - 1 / m) * (V - X)) <= (u24 * (1 / m) + eta) * (2 * B)) by (apply Rabs_mult_le; assumption).
        replace (B2R e' - (V / m + (1 - 1 / m) * X))
          with ((B2R e' - (W * V + (1 - W) * X)) + (W - 1 / m) * (V - X)) by (unfold Rdiv; ring).
        eapply Rle_trans; [apply Rabs_triang|]. eapply Rle_trans; [apply Rplus_le_compat; [exact He'|exact EW]|].
        assert (H1 : (1 - W) * (c * m) <= (1 - 1 / m + u24 * (1 / m) + eta) * (c * m)).
        { apply Rmult_le_compat_r; [apply HE|]. apply Rabs_le_inv in Ew. lra. }
        replace ((1 - 1 / m + u24 * (1 / m) + eta) * (c * m)) with (c * m - c + u24 * c + eta * (c * m)) in H1 by (field; lra).
        assert (H2 : eta * (c * m) <= eta * B) by (apply Rmult_le_compat_l; lra).
        assert (H3 : eta * B <= / 67108864 * u24 * B) by (apply Rmult_le_compat_r; lra).
        assert (H4 : (u24 * (1 / m) + eta) * (2 * B) <= 2 * (u24 * B) + 2 * (eta * B)).
        { replace (2 * (u24 * B) + 2 * (eta * B)) with ((u24 * 1 + eta) * (2 * B)) by ring. apply Rmult_le_compat_r; [lra|].
          apply Rplus_le_compat_r. apply Rmult_le_compat_l; lra. }
        assert (H5 : c = 12 * (u24 * B)) by (unfold c; ring).
        assert (H6 : u24 * c <= c / 1000) by (unfold u24; lra).
        assert (H7 : 0 < u24 * B) by (apply Rmult_lt_0_compat; lra). lra. }
    apply (G vs 2%nat v (B2R v) HF ltac:(lia) (proj1 Hv) (proj2 Hv)).
    rewrite Rminus_diag_eq by reflexivity. rewrite Rabs_R0. apply Rmult_le_pos; [exact Hc|]. apply IZR_le. lia.
  Qed.

  Lemma eps_value : B2R (@flit I 1 1000000 : f32) = 8796093 * bpow radix2 (-43).
  Proof.
    unfold flit. cbn [fdiv fofZ ieee].
    assert (E : exists m e H, Bdiv mode_NE (f32_of_Z 1) (f32_of_Z 1000000) = B754_finite false m e H /\ m = 8796093%positive /\ e = (-43)%Z).
    { destruct (Bdiv mode_NE (f32_of_Z 1) (f32_of_Z 1000000)) as [s|s| |s m e H] eqn:E0;
        apply (f_equal B2SF) in E0; vm_compute in E0; try discriminate.
      injection E0 as <- <- <-. do 3 eexists. split; [reflexivity|]. split; reflexivity. }
    destruct E as (m & e & H & E & -> & ->). rewrite E. unfold B2R, F2R. cbn [Defs.Fnum Defs.Fexp cond_Zopp]. reflexivity.
  Qed.

  (** The index of two float averages that do not both vanish, against the exact quotient. *)
  Lemma rsi_err (u d : f32) : nneg 127 u -> nneg 127 d -> bpow radix2 (-18) <= B2R u + B2R d ->
    is_finite (@rsi_of I u d : f32) = true /\
    Rabs (B2R (@rsi_of I u d : f32) - 100 * B2R u / (B2R u + B2R d)) <= / 8192.
  Proof.
    intros Hu Hd Hs. destruct (rsi_range lm as_ u d Hu Hd) as (Fr & _). split; [exact Fr|]. clear Fr.
    unfold rsi_of. cbn [fltb fsub fmul fdiv fadd fofZ ieee].
    pose proof eps_value as Ev. destruct (eps_bound lm as_) as [P1 P2]. set (eps := @flit I 1 1000000) in *.
    change (@flt I) with f32 in *.
    assert (Ev2 : / 1048576 <= B2R eps <= / 999999) by (rewrite Ev; change (bpow radix2 (-43)) with (/ 8796093022208); lra).
    destruct (ofZ_finite 100 ltac:(lia)) as [F100 R100].
    destruct (ofZ_finite 50 ltac:(lia)) as [F50 R50].
    destruct (ofZ_finite 1 ltac:(lia)) as [F1 R1].
    assert (Nu := nneg_num _ _ Hu). assert (Nd := nneg_num _ _ Hd).
    assert (Ne : nneg 0 eps) by (split; [exact P2|cbn [bpow]; lra]).
    destruct (Bmult_nneg 127 0 u eps ltac:(lia) Hu Ne) as [M1 M2]. rewrite Z.add_0_r in M1.
    rewrite !Bltb_ext by (auto; eapply nneg_num; eauto).
    rewrite !ext_finite by (try apply Hu; try apply Hd; try apply M1; auto).
    assert (Hu0 : 0 <= B2R u) by apply Hu. assert (Hd0 : 0 <= B2R d) by apply Hd.
    assert (B18 : bpow radix2 (-18) = / 262144) by reflexivity. rewrite B18 in Hs.
    pose proof (rnd_abs_err (B2R u * B2R eps) (B2R u * B2R eps) ltac:(rewrite Rabs_pos_eq; [lra|apply Rmult_le_pos; lra])) as Em.
    rewrite <- M2 in Em. apply Rabs_le_inv in Em.
    pose proof (eta_small (-18) ltac:(lia)) as Eta. rewrite B18 in Eta.
    set (eta := bpow radix2 (-150)) in *. assert (Heta : 0 < eta) by apply bpow_gt_0.
    change (@flt I) with f32 in *.
    set (U := B2R u) in *. set (D := B2R d) in *. set (EPS := B2R eps) in *.
    assert (Pm1 : U * / 1048576 <= U * EPS) by (apply Rmult_le_compat_l; lra).
    assert (Pm2 : U * EPS <= U * / 999999) by (apply Rmult_le_compat_l; lra).
    unfold u24 in *.
    destruct (Rlt_bool_spec U EPS) as [Cu|Cu];
      [destruct (Rlt_bool_spec D EPS) as [Cd|Cd]|]; cbn [andb].
    1: exfalso; lra.
    all: destruct (Rlt_bool_spec D (B2R (Bmult mode_NE u eps))) as [Cm|Cm].
    1,3: rewrite R100; assert (HU : 0 < U) by lra;
      replace (100 - 100 * U / (U + D)) with (100 * D * / (U + D)) by (field; lra);
      rewrite Rabs_pos_eq by (apply Rmult_le_pos; [lra|left; apply Rinv_0_lt_compat; lra]);
      apply Rmult_le_reg_r with (U + D); [lra|]; rewrite Rmult_assoc, Rinv_l by lra; lra.
    all: assert (HD : 0 < D) by lra.
    all: assert (Hq : 0 <= U / D <= bpow radix2 21)
        by (split; [apply Rle_mult_inv_pos; lra|]; apply Rmult_le_reg_r with D; [exact HD|];
            unfold Rdiv; rewrite Rmult_assoc, Rinv_l, Rmult_1_r by lra; change (bpow radix2 21) with 2097152; lra).
    all: pose proof (Bdiv_correct 24 128 _ _ mode_NE u d ltac:(fold D; lra)) as H; cbn [round_mode] in H; fold U D in H;
      rewrite (no_overflow _ 21) in H by (try lia; rewrite Rabs_pos_eq; lra);
      destruct H as (HR & HF & _).
    all: assert (Nq : nneg 21 (Bdiv mode_NE u d))
        by (split; [rewrite HF; apply Hu|rewrite HR; split; [apply rnd_nonneg; lra|apply rnd_le_bpow; [lia|lra]]]).
    all: pose proof (rnd_abs_err (U / D) (U / D) ltac:(rewrite Rabs_pos_eq; lra)) as Eq; rewrite <- HR in Eq; apply Rabs_le_inv in Eq.
    all: set (q := Bdiv mode_NE u d) in *.
    all: assert (N1 : nneg 21 (f32_of_Z 1)) by (split; [exact F1|rewrite R1; cbn; lra]).
    all: destruct (Bplus_nneg 21 (f32_of_Z 1) q ltac:(lia) N1 Nq) as [Y1 Y2]; rewrite R1 in Y2.
    all: assert (Hq0 : 0 <= B2R q) by apply Nq.
    all: pose proof (rnd_abs_err (1 + B2R q) (1 + B2R q) ltac:(rewrite Rabs_pos_eq; lra)) as Ey; rewrite <- Y2 in Ey; apply Rabs_le_inv in Ey.
    all: assert (Gy : 1 <= B2R (Bplus mode_NE (f32_of_Z 1) q)) by (rewrite Y2; apply rnd_1_le; lra).
    all: set (y := Bplus mode_NE (f32_of_Z 1) q) in *.
    all: assert (N100 : nneg 7 (f32_of_Z 100)) by (split; [exact F100|rewrite R100; cbn; lra]).
    all: destruct (Bdiv_nneg 0 7 (f32_of_Z 100) y ltac:(lia) N100 (proj1 Y1) ltac:(cbn [Z.opp bpow]; lra)) as [Z1 Z2].
    all: cbn [Z.add] in Z1; rewrite R100 in Z2.
    all: assert (Gy2 : 0 <= 100 / B2R y <= 100)
        by (split; [apply Rle_mult_inv_pos; lra|]; apply Rmult_le_reg_r with (B2R y); [lra|];
            unfold Rdiv; rewrite Rmult_assoc, Rinv_l, Rmult_1_r by lra; lra).
    all: pose proof (rnd_abs_err (100 / B2R y) 100 ltac:(rewrite Rabs_pos_eq; lra)) as Ez; rewrite <- Z2 in Ez; apply Rabs_le_inv in Ez.
    all: set (z := Bdiv mode_NE (f32_of_Z 100) y) in *.
    all: assert (G100 : generic_format radix2 fexp32 100) by (rewrite <- R100; apply generic_format_B2R).
    all: assert (Gz : 0 <= B2R z <= 100)
        by (split; [apply Z1|]; rewrite Z2; apply round_le_generic; try exact _; [exact G100|lra]).
    all: destruct (Bminus_nneg 7 (f32_of_Z 100) z ltac:(lia) N100 Z1 ltac:(rewrite R100; lra)) as [_ X2].
    all: rewrite R100 in X2.
    all: pose proof (rnd_abs_err (100 - B2R z) 100 ltac:(rewrite Rabs_pos_eq; lra)) as Er; rewrite <- X2 in Er; apply Rabs_le_inv in Er.
    all: set (r := Bminus mode_NE (f32_of_Z 100) z) in *.
    all: unfold u24 in *; fold eta in Eq, Ey, Ez, Er.
    all: set (T := 1 + U / D); assert (HT : 1 <= T) by (unfold T; lra).
    all: replace (100 * U / (U + D)) with (100 - 100 / T) by (unfold T; field; lra).
    all: assert (EyT : Rabs (B2R y - T) <= 3 * / 16777216 * T) by (apply Rabs_le; unfold T; lra).
    all: assert (EyI : Rabs (100 / B2R y - 100 / T) <= 300 * / 16777216)
        by (replace (100 / B2R y - 100 / T) with (- (100 * / B2R y * (/ T * (B2R y - T)))) by (field; lra);
            rewrite Rabs_Ropp; rewrite Rabs_mult, (Rabs_pos_eq (100 * / B2R y)) by (apply Gy2);
            rewrite Rabs_mult, (Rabs_pos_eq (/ T)) by (left; apply Rinv_0_lt_compat; lra);
            apply Rle_trans with (100 * (/ T * (3 * / 16777216 * T)));
            [apply Rmult_le_compat; [apply Gy2|apply Rmult_le_pos; [left; apply Rinv_0_lt_compat; lra|apply Rabs_pos]|apply Gy2|
               apply Rmult_le_compat_l; [left; apply Rinv_0_lt_compat; lra|exact EyT]]
            |right; field; lra]).
    all: apply Rabs_le_inv in EyI; apply Rabs_le; lra.
  Qed.

  (** Averages moved by at most h move the exact index by at most 100 h over their exact sum. *)
  Lemma index_perturb u d U D h : 0 <= u -> 0 <= d -> 0 < u + d -> 0 < U + D -> Rabs (u - U) <= h -> Rabs (d - D) <= h ->
    Rabs (100 * u / (u + d) - 100 * U / (U + D)) <= 100 * h / (U + D).
  Proof.
    intros Hu Hd Hs HS E1 E2.
    assert (Hi : 0 < / (U + D)) by (apply Rinv_0_lt_compat; exact HS).
    assert (Hj : 0 < / (u + d)) by (apply Rinv_0_lt_compat; exact Hs).
    replace (100 * u / (u + d) - 100 * U / (U + D)) with (100 * / (U + D) * (/ (u + d) * (d * (u - U) + - (u * (d - D))))) by (field; lra).
    rewrite Rabs_mult, (Rabs_pos_eq (100 * / (U + D))) by lra.
    rewrite Rabs_mult, (Rabs_pos_eq (/ (u + d))) by lra.
    replace (100 * h / (U + D)) with (100 * / (U + D) * h) by (unfold Rdiv; ring).
    apply Rmult_le_compat_l; [lra|].
    apply Rmult_le_reg_l with (u + d); [exact Hs|]. rewrite <- Rmult_assoc, Rinv_r, Rmult_1_l by lra.
    eapply Rle_trans; [apply Rabs_triang|]. rewrite Rabs_Ropp, !Rabs_mult, (Rabs_pos_eq u), (Rabs_pos_eq d) by assumption.
    assert (d * Rabs (u - U) <= d * h) by (apply Rmult_le_compat_l; assumption).
    assert (u * Rabs (d - D) <= u * h) by (apply Rmult_le_compat_l; assumption). lra.
  Qed.

  (** ** The changes *)
  Lemma change_err k (a c : f32) : (-100 <= k <= 100)%Z -> is_finite a = true -> is_finite c = true ->
    Rabs (B2R c - B2R a) <= bpow radix2 k ->
    (nneg k (@upward I a c) /\ Rabs (B2R (@upward I a c : f32) - Rmax 0 (B2R c - B2R a)) <= u24 * bpow radix2 k + bpow radix2 (-150)) /\
    (nneg k (@downward I a c) /\ Rabs (B2R (@downward I a c : f32) - Rmax 0 (- (B2R c - B2R a))) <= u24 * bpow radix2 k + bpow radix2 (-150)).
  Proof.
    intros Hk Fa Fc Hac. unfold upward, downward. cbn [fleb fsub fofZ ieee].
    rewrite Bleb_ext by (apply finite_num; assumption). rewrite !ext_finite by assumption.
    assert (Z0 : nneg k (f32_of_Z 0)) by (split; [reflexivity|]; cbn; split; [lra|apply bpow_ge_0]).
    assert (R0 : B2R (f32_of_Z 0) = 0) by reflexivity.
    assert (Hpos : 0 <= u24 * bpow radix2 k + bpow radix2 (-150)).
    { pose proof (bpow_gt_0 radix2 k). pose proof (bpow_gt_0 radix2 (-150)). unfold u24. lra. }
    assert (S : forall x y : f32, is_finite x = true -> is_finite y = true -> 0 <= B2R x - B2R y <= bpow radix2 k ->
      nneg k (Bminus mode_NE x y) /\ Rabs (B2R (Bminus mode_NE x y) - (B2R x - B2R y)) <= u24 * bpow radix2 k + bpow radix2 (-150)).
    { intros x y Fx Fy H. pose proof (Bminus_correct 24 128 _ _ mode_NE x y Fx Fy) as K. cbn [round_mode] in K.
      rewrite (no_overflow _ k) in K; [|lia|rewrite Rabs_pos_eq; lra]. destruct K as (KR & KF & _).
      split; [split; [exact KF|]; rewrite KR; split; [apply rnd_nonneg; lra|apply rnd_le_bpow; [lia|lra]]|].
      rewrite KR. apply rnd_abs_err. rewrite Rabs_pos_eq; lra. }
    apply Rabs_le_inv in Hac.
    destruct (Rle_bool_spec (B2R a) (B2R c)) as [H|H].
    - split.
      + rewrite Rmax_right by lra. apply S; auto. lra.
      + split; [exact Z0|]. rewrite R0, Rmax_left by lra. rewrite Rminus_0_r, Rabs_R0. exact Hpos.
    - split.
      + split; [exact Z0|]. rewrite R0, Rmax_left by lra. rewrite Rminus_0_r, Rabs_R0. exact Hpos.
      + replace (Rmax 0 (- (B2R c - B2R a))) with (B2R a - B2R c) by (rewrite Rmax_right; lra). apply S; auto. lra.
  Qed.

  Definition finite_prices (t : @ohlc_tick I) : Prop := is_finite (open t : f32) = true /\ is_finite (close t : f32) = true.

  Lemma series_finite p us : (forall t : @ohlc_tick I, In t us -> finite_prices t) ->
    forall x, In x (combine (@reference_prices I (series p us)) (map close (series p us))) ->
      is_finite (fst x : f32) = true /\ is_finite (snd x : f32) = true.
  Proof.
    intros H.
    assert (Hser : forall t : @ohlc_tick I, In t (series p us) -> finite_prices t).
    { intros t Ht. apply in_map_iff in Ht as (b & <- & _). unfold finite_prices.
      apply (period_prices lm as_ (fun x => is_finite x = true)); [reflexivity|]. exact H. }
    intros [a c] Hx. cbn [fst snd]. split.
    - apply in_combine_l in Hx. unfold reference_prices in Hx. destruct (series p us) as [|t ser] eqn:E; [destruct Hx|].
      destruct Hx as [<-|Hx]; [apply Hser; left; reflexivity|].
      apply in_map_iff in Hx as (y & <- & Hy). apply Hser.
      destruct (list_snoc (t :: ser)) as [E'|(l & z & E')]; [discriminate|]. rewrite E' in *. rewrite removelast_last in Hy.
      apply in_or_app. left. exact Hy.
    - apply in_combine_r in Hx. apply in_map_iff in Hx as (y & <- & Hy). apply Hser. exact Hy.
  Qed.

  (** Both averages of a run, against the exact ones. *)
  Lemma averages_err k n p us : (-100 <= k <= 100)%Z -> (1 <= n <= 2 ^ 20)%Z ->
    (forall t : @ohlc_tick I, In t us -> finite_prices t) ->
    Forall (fun c => Rabs c <= bpow radix2 k) (price_changes (series p us)) ->
    let u : f32 := @mma_of I n (@upward_changes I (series p us)) in
    let d : f32 := @mma_of I n (@downward_changes I (series p us)) in
    nneg (Z.max k 0) u /\ nneg (Z.max k 0) d /\
    Rabs (B2R u - average_rise n (price_changes (series p us))) <= IZR n * / 1048576 * bpow radix2 k /\
    Rabs (B2R d - average_fall n (price_changes (series p us))) <= IZR n * / 1048576 * bpow radix2 k.
  Proof.
    intros Hk Hn Hfin HF u d. pose proof (series_finite p us Hfin) as Hpair. unfold price_changes in HF.
    rewrite Forall_map, Forall_forall in HF.
    set (pairs := combine (@reference_prices I (series p us)) (map (@close I) (series p us)) : list (f32 * f32)) in *.
    assert (Hall : forall x, In x pairs -> is_finite (fst x) = true /\ is_finite (snd x) = true /\ Rabs (B2R (snd x) - B2R (fst x)) <= bpow radix2 k).
    { intros x Hx. destruct (Hpair x Hx) as (A & B). split; [exact A|]. split; [exact B|]. apply HF. exact Hx. }
    set (dl := u24 * bpow radix2 k + bpow radix2 (-150)).
    assert (HU : Forall (nneg k) (@upward_changes I (series p us) : list f32) /\
                 Forall2 (fun x y => Rabs (x - y) <= dl) (map B2R (@upward_changes I (series p us) : list f32)) (map (fun c => Rmax 0 c) (price_changes (series p us)))).
    { unfold upward_changes, price_changes. fold pairs. clear - Hall Hk. induction pairs as [|x l IH]; [split; constructor|].
      destruct (Hall x (or_introl eq_refl)) as (A & B & C). destruct (change_err k (fst x) (snd x) Hk A B C) as ((E1 & E2) & _).
      destruct IH as (I1 & I2); [intros; apply Hall; right; assumption|].
      cbn [map]. split; constructor; assumption. }
    assert (HD : Forall (nneg k) (@downward_changes I (series p us) : list f32) /\
                 Forall2 (fun x y => Rabs (x - y) <= dl) (map B2R (@downward_changes I (series p us) : list f32)) (map (fun c => Rmax 0 (- c)) (price_changes (series p us)))).
    { unfold downward_changes, price_changes. fold pairs. clear - Hall Hk. induction pairs as [|x l IH]; [split; constructor|].
      destruct (Hall x (or_introl eq_refl)) as (A & B & C). destruct (change_err k (fst x) (snd x) Hk A B C) as (_ & (E1 & E2)).
      destruct IH as (I1 & I2); [intros; apply Hall; right; assumption|].
      cbn [map]. split; constructor; assumption. }
    assert (Hdl : 0 <= dl).
    { pose proof (bpow_gt_0 radix2 k). pose proof (bpow_gt_0 radix2 (-150)). unfold dl, u24. lra. }
    assert (HN1 : 1 <= IZR n) by (apply IZR_le; lia).
    assert (K : forall (vs : list f32) ys, Forall (nneg k) vs -> Forall2 (fun x y => Rabs (x - y) <= dl) (map B2R vs) ys ->
      nneg (Z.max k 0) (@mma_of I n vs) /\ Rabs (B2R (@mma_of I n vs : f32) - Rmma n ys) <= IZR n * / 1048576 * bpow radix2 k).
    { intros vs ys H1 H2. split.
      - apply mma_bounded; [lia|lia|]. intros v Hv. rewrite Forall_forall in H1. eapply nneg_weaken; [|apply H1; exact Hv]. lia.
      - destruct (mma_float k n vs Hk Hn ltac:(eapply Forall_impl; [apply nneg_bnd|exact H1])) as (_ & E1).
        pose proof (Rmma_inputs n dl _ _ ltac:(lia) Hdl H2) as E2.
        pose proof (eta_small k ltac:(lia)) as Eta. pose proof (bpow_gt_0 radix2 k) as HB.
        unfold dl, u24 in *. set (B := bpow radix2 k) in *.
        assert (HBN : B <= IZR n * B) by (rewrite <- (Rmult_1_l B) at 1; apply Rmult_le_compat_r; lra).
        replace (12 * / 16777216 * B * IZR n) with (12 * / 16777216 * (IZR n * B)) in E1 by ring.
        replace (IZR n * / 1048576 * B) with (16 * / 16777216 * (IZR n * B)) by field.
        change (@flt I) with f32 in *. set (NB := IZR n * B) in *.
        match goal with |- Rabs (?x - ?y) <= _ => replace (x - y) with ((x - Rmma n (map B2R vs)) + (Rmma n (map B2R vs) - y)) by ring end.
        eapply Rle_trans; [apply Rabs_triang|]. lra. }
    destruct HU as (U1 & U2). destruct HD as (D1 & D2).
    destruct (K _ _ U1 U2) as (A1 & A2). destruct (K _ _ D1 D2) as (B1 & B2).
    split; [exact A1|]. split; [exact B1|]. split; [exact A2|exact B2].
  Qed.

  Lemma small_averages n p us : (1 <= n <= 2 ^ 20)%Z ->
    (forall t : @ohlc_tick I, In t us -> finite_prices t) ->
    Forall (fun c => Rabs c <= bpow radix2 (-21)) (price_changes (series p us)) ->
    nneg (-20) (@mma_of I n (@upward_changes I (series p us))) /\ nneg (-20) (@mma_of I n (@downward_changes I (series p us))).
  Proof.
    intros Hn Hfin HF. pose proof (series_finite p us Hfin) as Hpair. unfold price_changes in HF.
    rewrite Forall_map, Forall_forall in HF.
    set (pairs := combine (@reference_prices I (series p us)) (map (@close I) (series p us)) : list (f32 * f32)) in *.
    assert (HN : IZR n <= 1048576) by (apply IZR_le; lia).
    assert (K : forall vs : list f32, Forall (nneg (-21)) vs -> nneg (-20) (@mma_of I n vs)).
    { intros vs H1. destruct (mma_float (-21) n vs ltac:(lia) Hn ltac:(eapply Forall_impl; [apply nneg_bnd|exact H1])) as (F & E1).
      assert (H0 : nneg 0 (@mma_of I n vs)).
      { apply mma_bounded; [lia|lia|]. intros v Hv. rewrite Forall_forall in H1. eapply nneg_weaken; [|apply H1; exact Hv]. lia. }
      split; [exact F|]. split; [apply H0|].
      assert (HR : 0 <= Rmma n (map B2R vs) <= bpow radix2 (-21)).
      { apply Rmma_range; [lia|split; [lra|apply bpow_ge_0]|]. apply Forall_map. eapply Forall_impl; [|exact H1]. intros a Ha. apply Ha. }
      change (bpow radix2 (-21)) with (/ 2097152) in *. change (bpow radix2 (-20)) with (/ 1048576). apply Rabs_le_inv in E1.
      assert (12 * u24 * / 2097152 * IZR n <= 12 * u24 * / 2097152 * 1048576) by (apply Rmult_le_compat_l; [unfold u24; lra|exact HN]).
      unfold u24 in *. change (@flt I) with f32 in *. lra. }
    split; apply K; unfold upward_changes, downward_changes; fold pairs; apply Forall_map; apply Forall_forall; intros x Hx;
      destruct (Hpair x Hx) as (A & B); apply (change_err (-21) (fst x) (snd x) ltac:(lia) A B (HF x Hx)).
  Qed.
End RsiFloat.
