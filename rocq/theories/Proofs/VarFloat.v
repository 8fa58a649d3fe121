(** How far float rounding takes the sliding mean and variance from the exact ones. *)
From Coq Require Import Reals ZArith Bool List Lia Lra.
From Flocq Require Import Core BinarySingleNaN Relative.
From Verif.Model Require Import Outcome Machine Types Indicators MachineIEEE.
From Verif.Spec Require Import SeriesSpec IndicatorSpec.
From Verif.Proofs Require Import Base FloatLemmas FloatErr SeriesProofs LastNProofs SeriesProofs HelperProofs MeanProofs DriftProofs EvalFloat ScoreFloat.
Import ListNotations.
Local Open Scope R_scope.

(** The square of a float is exact in double. *)
Lemma square_exact (x : f32) : is_finite x = true ->
  is_finite (Bmult mode_NE (f32_to_f64 x) (f32_to_f64 x)) = true /\
  B2R (Bmult mode_NE (f32_to_f64 x) (f32_to_f64 x)) = B2R x * B2R x.
Proof.
  intros F. destruct (f2d_exact x F) as (Fd & Rd).
  pose proof (Bmult_correct 53 1024 _ _ mode_NE (f32_to_f64 x) (f32_to_f64 x)) as H. cbn [round_mode] in H.
  rewrite Rd, Fd in H.
  assert (G : generic_format radix2 fexp64 (B2R x * B2R x)).
  { pose proof (generic_format_B2R 24 128 x) as G.
    destruct (FLT_format_generic radix2 (-149) 24 _ G) as [[m e] E Hm He]. cbn [Fnum Fexp] in Hm, He.
    apply (generic_format_FLT radix2 (-1074) 53).
    exists (Float radix2 (m * m) (e + e)).
    - rewrite E. unfold F2R. cbn [Fnum Fexp]. rewrite mult_IZR, bpow_plus. ring.
    - cbn [Fnum]. rewrite Z.abs_mul. change (radix2 ^ 24)%Z with 16777216%Z in Hm. change (radix2 ^ 53)%Z with 9007199254740992%Z. nia.
    - cbn [Fexp]. lia. }
  rewrite round_generic in H; [|exact _|exact G].
  assert (B : Rabs (B2R x * B2R x) < bpow radix2 1024).
  { rewrite Rabs_mult. pose proof (abs_B2R_lt_emax 24 128 x) as K. pose proof (Rabs_pos (B2R x)).
    apply Rlt_trans with (bpow radix2 128 * bpow radix2 128).
    - apply Rmult_le_0_lt_compat; auto.
    - rewrite <- bpow_plus. apply bpow_lt. lia. }
  rewrite Rlt_bool_true in H by exact B. destruct H as (HR & HF & _). split; [exact HF|exact HR].
Qed.

(** Rounding in double, with the underflow error. *)
Lemma rnd64_err x : exists d e, rnd64 x = x * (1 + d) + e /\ Rabs d <= e53 /\ Rabs e <= bpow radix2 (-1000).
Proof.
  destruct (error_N_FLT radix2 (-1074) 53 ltac:(lia) (fun x => negb (Z.even x)) x) as (d & e & H1 & H2 & _ & H4).
  exists d, e. split; [exact H4|]. split.
  - eapply Rle_trans; [exact H1|]. change (- (53) + 1)%Z with (-52)%Z.
    change (bpow radix2 (-52)) with (/ 4503599627370496). unfold e53. lra.
  - eapply Rle_trans; [exact H2|]. change (/ 2) with (bpow radix2 (-1)). rewrite <- bpow_plus. apply bpow_le. lia.
Qed.

(** A little more than the unit roundoff of a float. *)
Definition u25 : R := / 16777216 * (1 + / 2097152).

(** Rounding to double and then to float. *)
Lemma double_round x : Rabs (rnd (rnd64 x) - x) <= u25 * Rabs x + 2 * bpow radix2 (-150).
Proof.
  destruct (rnd64_err x) as (d & e & E & Hd & He). destruct (rnd_err (rnd64 x)) as (d' & e' & E' & Hd' & He').
  rewrite E', E. change (bpow radix2 (-24)) with (/ 16777216) in Hd'. unfold e53 in Hd. unfold u25.
  replace ((x * (1 + d) + e) * (1 + d') + e' - x) with (x * (d + d' + d * d') + (e * (1 + d') + e')) by ring.
  eapply Rle_trans; [apply Rabs_triang|]. apply Rplus_le_compat.
  - rewrite Rabs_mult, Rmult_comm. apply Rmult_le_compat_r; [apply Rabs_pos|].
    eapply Rle_trans; [apply Rabs_triang|]. rewrite Rabs_mult.
    assert (Rabs d * Rabs d' <= / 9007199254740992 * / 16777216) by (apply Rmult_le_compat; auto using Rabs_pos).
    pose proof (Rabs_triang d d'). lra.
  - assert (K : bpow radix2 (-1000) <= bpow radix2 (-151)) by (apply bpow_le; lia).
    assert (K2 : bpow radix2 (-150) = 2 * bpow radix2 (-151)).
    { change 2 with (bpow radix2 1). rewrite <- bpow_plus. reflexivity. }
    eapply Rle_trans; [apply Rabs_triang|]. rewrite Rabs_mult.
    assert (Rabs (1 + d') <= 2) by (eapply Rle_trans; [apply Rabs_triang|]; rewrite Rabs_R1; lra).
    assert (Rabs e * Rabs (1 + d') <= bpow radix2 (-151) * 2).
    { apply Rmult_le_compat; auto using Rabs_pos. lra. }
    lra.
Qed.
Lemma single_round x : Rabs (rnd x - x) <= u25 * Rabs x + 2 * bpow radix2 (-150).
Proof.
  destruct (rnd_err x) as (d & e & E & Hd & He). rewrite E.
  change (bpow radix2 (-24)) with (/ 16777216) in Hd. unfold u25.
  replace (x * (1 + d) + e - x) with (x * d + e) by ring.
  eapply Rle_trans; [apply Rabs_triang|]. pose proof (bpow_gt_0 radix2 (-150)). apply Rplus_le_compat; [|lra].
  rewrite Rabs_mult, Rmult_comm. apply Rmult_le_compat_r; [apply Rabs_pos|]. lra.
Qed.

(** One event of a running sum, over the reals: s is the rounded sum, S the exact one, d is added. *)
Lemma event k (m c s S d s' : R) :
  (-100 <= k <= 100)%Z -> 1 <= m <= 2 ^ 20 -> 0 <= c -> c + 1 <= 2 ^ 23 ->
  Rabs (S + d) <= m * bpow radix2 k ->
  Rabs (s - S) <= c * (2 * u24) * (m + 6) * bpow radix2 k ->
  Rabs (s + d) <= (2 * m + 6) * bpow radix2 k /\
  (Rabs (s' - (s + d)) <= u25 * Rabs (s + d) + 2 * bpow radix2 (-150) ->
   Rabs (s' - (S + d)) <= (c + 1) * (2 * u24) * (m + 6) * bpow radix2 k).
Proof.
  intros Hk Hm Hc Hc1 HS Hs. pose proof (eta_small k ltac:(lia)) as Eta. pose proof (bpow_gt_0 radix2 k) as HB.
  set (B := bpow radix2 k) in *. set (eta := bpow radix2 (-150)) in *.
  assert (Heta : 0 < eta) by apply bpow_gt_0. unfold u24, u25 in *.
  set (E := c * (2 * / 16777216) * (m + 6) * B) in *.
  assert (HEb : E <= (m + 6) * B).
  { unfold E. rewrite Rmult_assoc. rewrite <- (Rmult_1_l ((m + 6) * B)) at 2.
    apply Rmult_le_compat_r; [|lra]. apply Rmult_le_pos; lra. }
  assert (HmB : m * B <= 2 ^ 20 * B) by (apply Rmult_le_compat_r; lra).
  assert (Hsum : Rabs (s + d) <= (2 * m + 6) * B).
  { replace (s + d) with ((S + d) + (s - S)) by ring. eapply Rle_trans; [apply Rabs_triang|]. lra. }
  split; [exact Hsum|]. intros Hr.
  replace (s' - (S + d)) with ((s' - (s + d)) + (s - S)) by ring.
  eapply Rle_trans; [apply Rabs_triang|].
  replace ((c + 1) * (2 * / 16777216) * (m + 6) * B) with (E + 2 * / 16777216 * (m * B + 6 * B)) by (unfold E; ring).
  replace ((2 * m + 6) * B) with (2 * (m * B) + 6 * B) in Hsum by ring. lra.
Qed.

Section Var.
  Context (lm : libm) (as_ : bool).
  Local Notation I := (ieee lm as_).
  Context (k : Z) (Hk : (-50 <= k <= 50)%Z).

  Lemma bk_sq : bpow radix2 k * bpow radix2 k = bpow radix2 (2 * k).
  Proof. rewrite <- bpow_plus. f_equal. lia. Qed.

  Lemma sq_bound (x : f32) : bnd k x -> Rabs (B2R x * B2R x) <= bpow radix2 (2 * k).
  Proof.
    intros (_ & H). rewrite Rabs_mult, <- bk_sq. apply Rmult_le_compat; auto using Rabs_pos.
  Qed.

  (** The four float updates of the sums. *)
  Lemma add_event (m c : R) (s x : f32) (S0 : R) :
    1 <= m <= 2 ^ 20 -> 0 <= c -> c + 1 <= 2 ^ 23 -> is_finite s = true -> bnd k x ->
    Rabs (S0 + B2R x) <= m * bpow radix2 k ->
    Rabs (B2R s - S0) <= c * (2 * u24) * (m + 6) * bpow radix2 k ->
    is_finite (Bplus mode_NE s x) = true /\
    Rabs (B2R (Bplus mode_NE s x) - (S0 + B2R x)) <= (c + 1) * (2 * u24) * (m + 6) * bpow radix2 k.
  Proof.
    intros Hm Hc Hc1 Fs (Fx & Bx) HS Hs.
    destruct (event k m c (B2R s) S0 (B2R x) (B2R (Bplus mode_NE s x)) ltac:(lia) Hm Hc Hc1 HS Hs) as (Hb & Hi).
    pose proof (bpow_gt_0 radix2 k) as HB.
    pose proof (Bplus_correct 24 128 _ _ mode_NE s x Fs Fx) as H. cbn [round_mode] in H.
    rewrite (no_overflow _ (k + 22)) in H; [|lia|].
    2: { eapply Rle_trans; [exact Hb|]. rewrite bpow_plus. rewrite (Rmult_comm (bpow radix2 k)).
         apply Rmult_le_compat_r; [lra|]. change (bpow radix2 22) with 4194304. lra. }
    destruct H as (HR & HF & _). split; [exact HF|]. apply Hi. rewrite HR. apply single_round.
  Qed.

  Lemma sub_event (m c : R) (s x : f32) (S0 : R) :
    1 <= m <= 2 ^ 20 -> 0 <= c -> c + 1 <= 2 ^ 23 -> is_finite s = true -> bnd k x ->
    Rabs (S0 - B2R x) <= m * bpow radix2 k ->
    Rabs (B2R s - S0) <= c * (2 * u24) * (m + 6) * bpow radix2 k ->
    is_finite (Bminus mode_NE s x) = true /\
    Rabs (B2R (Bminus mode_NE s x) - (S0 - B2R x)) <= (c + 1) * (2 * u24) * (m + 6) * bpow radix2 k.
  Proof.
    intros Hm Hc Hc1 Fs (Fx & Bx) HS Hs.
    destruct (event k m c (B2R s) S0 (- B2R x) (B2R (Bminus mode_NE s x)) ltac:(lia) Hm Hc Hc1 HS Hs) as (Hb & Hi).
    pose proof (bpow_gt_0 radix2 k) as HB.
    pose proof (Bminus_correct 24 128 _ _ mode_NE s x Fs Fx) as H. cbn [round_mode] in H.
    rewrite (no_overflow _ (k + 22)) in H; [|lia|].
    2: { eapply Rle_trans; [exact Hb|]. rewrite bpow_plus. rewrite (Rmult_comm (bpow radix2 k)).
         apply Rmult_le_compat_r; [lra|]. change (bpow radix2 22) with 4194304. lra. }
    destruct H as (HR & HF & _). split; [exact HF|]. apply Hi. rewrite HR. apply single_round.
  Qed.

  Lemma add_square_event (m c : R) (s x : f32) (S0 : R) :
    1 <= m <= 2 ^ 20 -> 0 <= c -> c + 1 <= 2 ^ 23 -> is_finite s = true -> bnd k x ->
    Rabs (S0 + B2R x * B2R x) <= m * bpow radix2 (2 * k) ->
    Rabs (B2R s - S0) <= c * (2 * u24) * (m + 6) * bpow radix2 (2 * k) ->
    is_finite (@add_square I s x : f32) = true /\
    Rabs (B2R (@add_square I s x : f32) - (S0 + B2R x * B2R x)) <= (c + 1) * (2 * u24) * (m + 6) * bpow radix2 (2 * k).
  Proof.
    intros Hm Hc Hc1 Fs (Fx & Bx) HS Hs.
    destruct (event (2 * k) m c (B2R s) S0 (B2R x * B2R x) (B2R (@add_square I s x : f32)) ltac:(lia) Hm Hc Hc1 HS Hs) as (Hb & Hi).
    pose proof (bpow_gt_0 radix2 (2 * k)) as HB.
    destruct (square_exact x Fx) as (Fq & Rq). destruct (f2d_exact s Fs) as (Fd & Rd).
    assert (Hb2 : Rabs (B2R s + B2R x * B2R x) <= bpow radix2 (2 * k + 22)).
    { eapply Rle_trans; [exact Hb|]. rewrite bpow_plus. rewrite (Rmult_comm (bpow radix2 (2 * k))).
      apply Rmult_le_compat_r; [lra|]. change (bpow radix2 22) with 4194304. lra. }
    unfold add_square, dsquare in *. cbn [d2f dadd dmul f2d ieee] in *.
    set (q := Bmult mode_NE (f32_to_f64 x) (f32_to_f64 x)) in *.
    pose proof (Bplus_correct 53 1024 _ _ mode_NE (f32_to_f64 s) q Fd Fq) as H. cbn [round_mode] in H.
    rewrite Rd, Rq in H. rewrite (no_overflow64 _ (2 * k + 22)) in H; [|lia|exact Hb2].
    destruct H as (HR & HF & _).
    destruct (d2f_rnd (Bplus mode_NE (f32_to_f64 s) q) (2 * k + 22)) as (F1 & R1); [lia|exact HF| |].
    { rewrite HR. apply abs_round_le_generic; try exact _; [apply format64_bpow; lia|exact Hb2]. }
    split; [exact F1|]. apply Hi. rewrite R1, HR. apply double_round.
  Qed.

  Lemma sub_square_event (m c : R) (s x : f32) (S0 : R) :
    1 <= m <= 2 ^ 20 -> 0 <= c -> c + 1 <= 2 ^ 23 -> is_finite s = true -> bnd k x ->
    Rabs (S0 - B2R x * B2R x) <= m * bpow radix2 (2 * k) ->
    Rabs (B2R s - S0) <= c * (2 * u24) * (m + 6) * bpow radix2 (2 * k) ->
    is_finite (@sub_square I s x : f32) = true /\
    Rabs (B2R (@sub_square I s x : f32) - (S0 - B2R x * B2R x)) <= (c + 1) * (2 * u24) * (m + 6) * bpow radix2 (2 * k).
  Proof.
    intros Hm Hc Hc1 Fs (Fx & Bx) HS Hs.
    destruct (event (2 * k) m c (B2R s) S0 (- (B2R x * B2R x)) (B2R (@sub_square I s x : f32)) ltac:(lia) Hm Hc Hc1 HS Hs) as (Hb & Hi).
    pose proof (bpow_gt_0 radix2 (2 * k)) as HB.
    destruct (square_exact x Fx) as (Fq & Rq). destruct (f2d_exact s Fs) as (Fd & Rd).
    assert (Hb2 : Rabs (B2R s - B2R x * B2R x) <= bpow radix2 (2 * k + 22)).
    { eapply Rle_trans; [exact Hb|]. rewrite bpow_plus. rewrite (Rmult_comm (bpow radix2 (2 * k))).
      apply Rmult_le_compat_r; [lra|]. change (bpow radix2 22) with 4194304. lra. }
    unfold sub_square, dsquare in *. cbn [d2f dsub dmul f2d ieee] in *.
    set (q := Bmult mode_NE (f32_to_f64 x) (f32_to_f64 x)) in *.
    pose proof (Bminus_correct 53 1024 _ _ mode_NE (f32_to_f64 s) q Fd Fq) as H. cbn [round_mode] in H.
    rewrite Rd, Rq in H. rewrite (no_overflow64 _ (2 * k + 22)) in H; [|lia|exact Hb2].
    destruct H as (HR & HF & _).
    destruct (d2f_rnd (Bminus mode_NE (f32_to_f64 s) q) (2 * k + 22)) as (F1 & R1); [lia|exact HF| |].
    { rewrite HR. apply abs_round_le_generic; try exact _; [apply format64_bpow; lia|exact Hb2]. }
    split; [exact F1|]. apply Hi. rewrite R1, HR. apply double_round.
  Qed.

  (** The values before the current one that count. *)
  Definition before {A} (n : Z) (vs0 : list A) : list A :=
    if (n =? 0)%Z then vs0 else lastn (Z.to_nat (n - 1)) vs0.
  Lemma last_or_all_before {A} n (vs0 : list A) c : (0 <= n)%Z -> last_or_all n (vs0 ++ [c]) = before n vs0 ++ [c].
  Proof.
    intros Hn. unfold last_or_all, before. destruct (Z.eqb_spec n 0) as [->|H0]; [reflexivity|].
    unfold lastn. rewrite app_length. cbn [length].
    replace (length vs0 + 1 - Z.to_nat n)%nat with (length vs0 - Z.to_nat (n - 1))%nat by lia.
    apply skipn_snoc. lia.
  Qed.
  Lemma before_length {A} n (vs : list A) : (length (before n vs) <= length vs)%nat.
  Proof. unfold before. destruct (n =? 0)%Z; [lia|]. rewrite lastn_length. lia. Qed.
  Lemma before_within n (vs : list f32) : Forall (bnd k) vs -> Forall (bnd k) (before n vs).
  Proof.
    intros H. unfold before. destruct (n =? 0)%Z; [exact H|]. unfold lastn. rewrite Forall_forall in *. intros x Hx. apply H.
    rewrite <- (firstn_skipn (length vs - Z.to_nat (n - 1)) vs). apply in_or_app. right. exact Hx.
  Qed.
  Lemma before_nil {A} n : before n (@nil A) = [].
  Proof. unfold before. destruct (n =? 0)%Z; [reflexivity|]. unfold lastn. apply skipn_nil. Qed.
  Lemma before_1 {A} (vs : list A) : before 1 vs = [].
  Proof. unfold before. cbn [Z.eqb]. unfold lastn. change (Z.to_nat (1 - 1)) with 0%nat. rewrite Nat.sub_0_r. apply skipn_all. Qed.

  Definition Fsum (l : list f32) : R := Rsum (map (fun x : f32 => B2R x) l).
  Definition Fsum2 (l : list f32) : R := Rsum (map (fun x : f32 => B2R x * B2R x) l).
  Lemma Fsum_app a b : Fsum (a ++ b) = Fsum a + Fsum b. Proof. unfold Fsum. rewrite map_app. apply Rsum_app. Qed.
  Lemma Fsum2_app a b : Fsum2 (a ++ b) = Fsum2 a + Fsum2 b. Proof. unfold Fsum2. rewrite map_app. apply Rsum_app. Qed.
  Lemma Fsum_1 x : Fsum [x] = B2R x. Proof. unfold Fsum, Rsum. cbn. ring. Qed.
  Lemma Fsum2_1 x : Fsum2 [x] = B2R x * B2R x. Proof. unfold Fsum2, Rsum. cbn. ring. Qed.
  Lemma Fsum_bound l : Forall (bnd k) l -> Rabs (Fsum l) <= INR (length l) * bpow radix2 k.
  Proof.
    intros H. unfold Fsum. rewrite <- (map_length (fun x : f32 => B2R x)). apply Rsum_bound. apply Forall_map.
    eapply Forall_impl; [|exact H]. intros x Hx. apply Hx.
  Qed.
  Lemma Fsum2_bound l : Forall (bnd k) l -> Rabs (Fsum2 l) <= INR (length l) * bpow radix2 (2 * k).
  Proof.
    intros H. unfold Fsum2. rewrite <- (map_length (fun x : f32 => B2R x * B2R x)). apply Rsum_bound. apply Forall_map.
    eapply Forall_impl; [|exact H]. intros x Hx. apply sq_bound. exact Hx.
  Qed.

  (** A float sum s close to an exact one S0, after c events, with at most m values at once. *)
  Definition near (j : Z) (c m : nat) (s : f32) (S0 : R) : Prop :=
    is_finite s = true /\ Rabs (B2R s - S0) <= INR c * (2 * u24) * (INR m + 6) * bpow radix2 j.
  Lemma near_mono j c c' m m' s S0 : (c <= c')%nat -> (m <= m')%nat -> near j c m s S0 -> near j c' m' s S0.
  Proof.
    intros Hc Hm (F & H). split; [exact F|]. eapply Rle_trans; [exact H|]. pose proof (bpow_gt_0 radix2 j).
    apply Rmult_le_compat_r; [lra|]. pose proof (le_INR _ _ Hc). pose proof (le_INR _ _ Hm). pose proof (pos_INR c). pose proof (pos_INR m).
    apply Rmult_le_compat; unfold u24 in *; lra.
  Qed.
  Lemma near_0 j m (z : f32) : is_finite z = true -> B2R z = 0 -> near j 0 m z 0.
  Proof.
    intros F E. split; [exact F|]. rewrite E, Rminus_0_r, Rabs_R0. cbn [INR]. lra.
  Qed.

  Lemma small_m (m : nat) : (1 <= m)%nat -> (Z.of_nat m <= 2 ^ 20)%Z -> 1 <= INR m <= 2 ^ 20.
  Proof.
    intros H1 H2. split; [change 1 with (INR 1); apply le_INR; exact H1|].
    rewrite INR_IZR_INZ. replace (2 ^ 20)%R with (IZR (2 ^ 20)) by (change (IZR (2 ^ 20)) with 1048576; lra). apply IZR_le. exact H2.
  Qed.
  Lemma small_c (c : nat) : (Z.of_nat c + 1 <= 2 ^ 23)%Z -> 0 <= INR c /\ INR c + 1 <= 2 ^ 23.
  Proof.
    intros H. split; [apply pos_INR|]. rewrite <- S_INR, INR_IZR_INZ.
    replace (2 ^ 23)%R with (IZR (2 ^ 23)) by (change (IZR (2 ^ 23)) with 8388608; lra). apply IZR_le. lia.
  Qed.

  Lemma near_add c m s x l : (1 <= m)%nat -> (Z.of_nat m <= 2 ^ 20)%Z -> (Z.of_nat c + 1 <= 2 ^ 23)%Z -> (length l < m + 1)%nat ->
    (length l + 1 <= m)%nat -> Forall (bnd k) (l ++ [x]) ->
    near k c m s (Fsum l) -> near k (S c) m (Bplus mode_NE s x) (Fsum (l ++ [x])).
  Proof.
    intros Hm1 Hm2 Hc _ Hl HF (F & H). destruct (small_c c Hc) as (C0 & C1).
    pose proof (Fsum_bound _ HF) as HS. rewrite Fsum_app, Fsum_1, app_length in HS. cbn [length] in HS.
    apply Forall_app in HF as (HF & Hx). inversion Hx as [|? ? Hx' _]; subst.
    unfold near. rewrite S_INR, Fsum_app, Fsum_1. apply add_event; auto.
    - apply small_m; assumption.
    - eapply Rle_trans; [exact HS|]. apply Rmult_le_compat_r; [apply bpow_ge_0|]. apply le_INR. lia.
  Qed.
  Lemma near_add2 c m s x l : (1 <= m)%nat -> (Z.of_nat m <= 2 ^ 20)%Z -> (Z.of_nat c + 1 <= 2 ^ 23)%Z ->
    (length l + 1 <= m)%nat -> Forall (bnd k) (l ++ [x]) ->
    near (2 * k) c m s (Fsum2 l) -> near (2 * k) (S c) m (@add_square I s x) (Fsum2 (l ++ [x])).
  Proof.
    intros Hm1 Hm2 Hc Hl HF (F & H). destruct (small_c c Hc) as (C0 & C1).
    pose proof (Fsum2_bound _ HF) as HS. rewrite Fsum2_app, Fsum2_1, app_length in HS. cbn [length] in HS.
    apply Forall_app in HF as (HF & Hx). inversion Hx as [|? ? Hx' _]; subst.
    unfold near. rewrite S_INR, Fsum2_app, Fsum2_1. apply add_square_event; auto.
    - apply small_m; assumption.
    - eapply Rle_trans; [exact HS|]. apply Rmult_le_compat_r; [apply bpow_ge_0|]. apply le_INR. lia.
  Qed.
  Lemma near_sub c m s x l : (1 <= m)%nat -> (Z.of_nat m <= 2 ^ 20)%Z -> (Z.of_nat c + 1 <= 2 ^ 23)%Z ->
    (length l <= m)%nat -> Forall (bnd k) (x :: l) ->
    near k c m s (Fsum (x :: l)) -> near k (S c) m (Bminus mode_NE s x) (Fsum l).
  Proof.
    intros Hm1 Hm2 Hc Hl HF (F & H). destruct (small_c c Hc) as (C0 & C1).
    inversion HF as [|? ? Hx HF']; subst. pose proof (Fsum_bound _ HF') as HS.
    change (x :: l) with ([x] ++ l) in H. rewrite Fsum_app, Fsum_1 in H.
    unfold near. rewrite S_INR. replace (Fsum l) with (B2R x + Fsum l - B2R x) by ring. apply sub_event; auto.
    - apply small_m; assumption.
    - replace (B2R x + Fsum l - B2R x) with (Fsum l) by ring.
      eapply Rle_trans; [exact HS|]. apply Rmult_le_compat_r; [apply bpow_ge_0|]. apply le_INR. lia.
  Qed.
  Lemma near_sub2 c m s x l : (1 <= m)%nat -> (Z.of_nat m <= 2 ^ 20)%Z -> (Z.of_nat c + 1 <= 2 ^ 23)%Z ->
    (length l <= m)%nat -> Forall (bnd k) (x :: l) ->
    near (2 * k) c m s (Fsum2 (x :: l)) -> near (2 * k) (S c) m (@sub_square I s x) (Fsum2 l).
  Proof.
    intros Hm1 Hm2 Hc Hl HF (F & H). destruct (small_c c Hc) as (C0 & C1).
    inversion HF as [|? ? Hx HF']; subst. pose proof (Fsum2_bound _ HF') as HS.
    change (x :: l) with ([x] ++ l) in H. rewrite Fsum2_app, Fsum2_1 in H.
    unfold near. rewrite S_INR. replace (Fsum2 l) with (B2R x * B2R x + Fsum2 l - B2R x * B2R x) by ring. apply sub_square_event; auto.
    - apply small_m; assumption.
    - replace (B2R x * B2R x + Fsum2 l - B2R x * B2R x) with (Fsum2 l) by ring.
      eapply Rle_trans; [exact HS|]. apply Rmult_le_compat_r; [apply bpow_ge_0|]. apply le_INR. lia.
  Qed.

  (** The state after the values vs. *)
  Definition var_inv (n : Z) (s : @mean_var I) (vs : list f32) : Prop :=
    @mv_window_size I s = n /\ @mv_num_values I s = Z.of_nat (length vs) /\
    match rev vs with
    | [] => (@mv_current I s : f32) = f32_of_Z 0 /\ @mv_window I s = [] /\
            (@mv_sum I s : f32) = f32_of_Z 0 /\ (@mv_sum2 I s : f32) = f32_of_Z 0
    | c :: older =>
      (@mv_current I s : f32) = c /\
      ((n <> 0)%Z -> @mv_window I s = before n (rev older)) /\
      near k (2 * length older) (S (length (before n (rev older)))) (@mv_sum I s) (Fsum (before n (rev older))) /\
      near (2 * k) (2 * length older) (S (length (before n (rev older)))) (@mv_sum2 I s) (Fsum2 (before n (rev older)))
    end.

  Lemma var_inv_of n vs : (0 <= n)%Z -> Forall (bnd k) vs -> (Z.of_nat (length vs) <= 2 ^ 19)%Z ->
    var_inv n (@mv_of I n vs) vs.
  Proof.
    intros Hn. change (@flt I) with f32 in *. induction vs as [|v vs IH] using rev_ind; intros HF HL.
    - unfold var_inv. cbn. repeat split.
    - rewrite (@mv_of_snoc I). apply Forall_app in HF as (HF & _). rewrite app_length in HL. cbn [length] in HL.
      specialize (IH HF ltac:(lia)). set (s := @mv_of I n vs) in *. clearbody s. destruct IH as (I1 & I2 & I3).
      unfold var_inv. rewrite (@mv_num I), I2, app_length, rev_app_distr. cbn [length rev app].
      rewrite rev_involutive, rev_length. unfold mv_AddNewValue. rewrite I1, I2.
      assert (Z0 : is_finite (f32_of_Z 0) = true /\ B2R (f32_of_Z 0) = 0) by (apply ofZ_finite; lia).
      destruct (list_snoc vs) as [->|(vs0 & c & ->)].
      + cbn [rev] in I3. destruct I3 as (J1 & J2 & J3 & J4). cbn [length Z.of_nat Z.eqb orb].
        destruct (Z.eqb_spec n 0) as [->|Hn0]; cbn [mv_window_size mv_current mv_window mv_sum mv_sum2];
          rewrite before_nil; (split; [reflexivity|]; split; [lia|]; split; [reflexivity|]; split; [auto; lia|]).
        * rewrite J1, J3, J4. cbn [length]. split; apply near_0; reflexivity.
        * change (@flt I) with f32 in *. rewrite J3, J4. cbn [length]. split; apply near_0; apply Z0.
      + rewrite rev_app_distr in I3. cbn [rev app] in I3. rewrite rev_involutive, rev_length in I3.
        destruct I3 as (J1 & J2 & J3 & J4). rewrite app_length in *. cbn [length] in *.
        rewrite (proj2 (Z.eqb_neq _ 0)) by lia. cbn [orb].
        pose proof (before_length n vs0) as LB.
        assert (HFb : Forall (bnd k) (before n vs0 ++ [c])).
        { apply Forall_app in HF as (HF0 & Hc). apply Forall_app. split; [apply before_within; exact HF0|exact Hc]. }
        destruct (Z.leb_spec n 1) as [C2|C2].
        * destruct (Z.eqb_spec n 0) as [->|Hn0]; cbn [mv_window_size mv_current mv_window mv_sum mv_sum2];
            (split; [reflexivity|]; split; [lia|]; split; [reflexivity|]).
          -- split; [lia|]. unfold before in *. cbn [Z.eqb] in *. change (@flt I) with f32 in *. rewrite J1, app_length. cbn [length].
             split.
             ++ apply near_mono with (c := S (2 * length vs0)) (m := S (S (length vs0))); try lia.
                apply (near_add (2 * length vs0)); auto; try lia.
                apply near_mono with (c := (2 * length vs0)%nat) (m := S (length vs0)); auto; lia.
             ++ apply near_mono with (c := S (2 * length vs0)) (m := S (S (length vs0))); try lia.
                apply (near_add2 (2 * length vs0)); auto; try lia.
                apply near_mono with (c := (2 * length vs0)%nat) (m := S (length vs0)); auto; lia.
          -- assert (n = 1%Z) as E1 by lia. clear C2. rewrite E1 in *. rewrite before_1 in *. cbn [length] in *.
             split; [intros _; apply J2; lia|].
             split; eapply near_mono; try eassumption; lia.
        * rewrite J2, J1 by lia.
          assert (EL : length (before n vs0 ++ [c]) = S (Nat.min (Z.to_nat (n - 1)) (length vs0))).
          { rewrite app_length. unfold before. rewrite (proj2 (Z.eqb_neq n 0)) by lia. rewrite lastn_length. cbn [length]. lia. }
          assert (EL0 : length (before n vs0) = Nat.min (Z.to_nat (n - 1)) (length vs0)) by (rewrite app_length in EL; cbn [length] in EL; lia).
          change (@flt I) with f32 in *.
          destruct (Z.leb_spec n (Z.of_nat (length (before n vs0 ++ [c])))) as [H|H].
          -- rewrite EL in H. assert (Hl : (0 < Z.to_nat (n - 1) <= length vs0)%nat) by lia.
             assert (Hnew : before n (vs0 ++ [c]) = tl (before n vs0 ++ [c])).
             { unfold before. rewrite (proj2 (Z.eqb_neq n 0)) by lia. rewrite lastn_snoc_full by lia.
               destruct (lastn (Z.to_nat (n - 1)) vs0) eqn:Ee; [|reflexivity].
               apply (f_equal (@length _)) in Ee. rewrite lastn_length in Ee. cbn in Ee. lia. }
             rewrite Hnew. set (m := S (length (before n vs0))) in *.
             assert (K1 : near k (S (2 * length vs0)) m (Bplus mode_NE (@mv_sum I s) c) (Fsum (before n vs0 ++ [c]))).
             { apply near_add; auto; lia. }
             assert (K2 : near (2 * k) (S (2 * length vs0)) m (@add_square I (@mv_sum2 I s) c) (Fsum2 (before n vs0 ++ [c]))).
             { apply near_add2; auto; lia. }
             assert (Lw : length (before n vs0 ++ [c]) = m) by (rewrite app_length; cbn [length]; lia).
             destruct (before n vs0 ++ [c]) as [|x w]; [cbn in Lw; lia|]. cbn [tl]. cbn [length] in Lw.
             cbn [mv_window_size mv_current mv_window mv_sum mv_sum2].
             split; [reflexivity|]. split; [lia|]. split; [reflexivity|]. split; [reflexivity|]. rewrite Lw.
             replace (2 * (length vs0 + 1))%nat with (S (S (2 * length vs0))) by lia.
             split; [apply near_sub|apply near_sub2]; auto; lia.
          -- assert (Hl : (length vs0 < Z.to_nat (n - 1))%nat) by lia.
             cbn [mv_window_size mv_current mv_window mv_sum mv_sum2].
             split; [reflexivity|]. split; [lia|]. split; [reflexivity|].
             assert (Ea : before n (vs0 ++ [c]) = before n vs0 ++ [c]).
             { unfold before. rewrite (proj2 (Z.eqb_neq n 0)) by lia. rewrite !lastn_short by (rewrite ?app_length; cbn [length]; lia). reflexivity. }
             rewrite Ea, app_length. cbn [length]. split; [reflexivity|].
             set (m := S (length (before n vs0))) in *.
             assert (K1 : near k (S (2 * length vs0)) (S m) (Bplus mode_NE (@mv_sum I s) c) (Fsum (before n vs0 ++ [c]))).
             { apply near_add; auto; try lia. eapply near_mono; [| |exact J3]; lia. }
             assert (K2 : near (2 * k) (S (2 * length vs0)) (S m) (@add_square I (@mv_sum2 I s) c) (Fsum2 (before n vs0 ++ [c]))).
             { apply near_add2; auto; try lia. eapply near_mono; [| |exact J4]; lia. }
             split; eapply near_mono; try eassumption; lia.
  Qed.

  Lemma near_addC c m s x l : (1 <= m)%nat -> (Z.of_nat m <= 2 ^ 20)%Z -> (Z.of_nat c + 1 <= 2 ^ 23)%Z ->
    (length l + 1 <= m)%nat -> Forall (bnd k) (l ++ [x]) ->
    near k c m s (Fsum l) -> near k (S c) m (Bplus mode_NE x s) (Fsum (l ++ [x])).
  Proof.
    intros Hm1 Hm2 Hc Hl HF (F & H). destruct (small_c c Hc) as (C0 & C1). pose proof (small_m m Hm1 Hm2) as Hm.
    pose proof (Fsum_bound _ HF) as HS. rewrite Fsum_app, Fsum_1, app_length in HS. cbn [length] in HS.
    apply Forall_app in HF as (HF & Hx). inversion Hx as [|? ? Hx' _]; subst. destruct Hx' as (Fx & Bx).
    unfold near. rewrite S_INR, Fsum_app, Fsum_1.
    destruct (event k (INR m) (INR c) (B2R s) (Fsum l) (B2R x) (B2R (Bplus mode_NE x s)) ltac:(lia) Hm C0 C1) as (Hb & Hi); [|exact H|].
    { eapply Rle_trans; [exact HS|]. apply Rmult_le_compat_r; [apply bpow_ge_0|]. apply le_INR. lia. }
    pose proof (bpow_gt_0 radix2 k) as HB.
    pose proof (Bplus_correct 24 128 _ _ mode_NE x s Fx F) as K. cbn [round_mode] in K. rewrite (Rplus_comm (B2R x)) in K.
    rewrite (no_overflow _ (k + 22)) in K; [|lia|].
    2: { eapply Rle_trans; [exact Hb|]. rewrite bpow_plus. rewrite (Rmult_comm (bpow radix2 k)).
         apply Rmult_le_compat_r; [lra|]. change (bpow radix2 22) with 4194304. lra. }
    destruct K as (HR & HF' & _). split; [exact HF'|]. apply Hi. rewrite HR. apply single_round.
  Qed.

  Lemma window_size_of n (vs : list f32) : (0 <= n)%Z -> vs <> [] ->
    @mv_GetWindowSize I (@mv_of I n vs) = Z.of_nat (length (last_or_all n vs)) /\ last_or_all n vs <> [] /\
    (length (last_or_all n vs) <= length vs)%nat.
  Proof.
    intros Hn Hv. unfold mv_GetWindowSize. rewrite (@mv_of_num I).
    assert (W : @mv_window_size I (@mv_of I n vs) = n).
    { change (@flt I) with f32 in *. clear. induction vs as [|v vs IH] using rev_ind; [reflexivity|]. rewrite (@mv_of_snoc I).
      unfold mv_AddNewValue. rewrite IH. destruct (_ || _)%bool.
      - destruct (n =? 0)%Z; reflexivity.
      - destruct (n <=? _)%Z; [|reflexivity]. destruct (_ ++ _); reflexivity. }
    rewrite W. change (@flt I) with f32 in *. unfold last_or_all. destruct (Z.eqb_spec n 0) as [->|H0]; [auto|]. rewrite lastn_length. split; [lia|].
    split; [|lia]. intros H. apply (f_equal (@length _)) in H. rewrite lastn_length in H. destruct vs; [congruence|]. cbn [length] in H. lia.
  Qed.

  Lemma last_or_all_within n (vs : list f32) : Forall (bnd k) vs -> Forall (bnd k) (last_or_all n vs).
  Proof.
    intros H. unfold last_or_all. destruct (n =? 0)%Z; [exact H|]. unfold lastn. rewrite Forall_forall in *. intros x Hx. apply H.
    rewrite <- (firstn_skipn (length vs - Z.to_nat n) vs). apply in_or_app. right. exact Hx.
  Qed.

  Definition reals (l : list f32) : list R := map (fun x : f32 => B2R x) l.

  Lemma mean_err n vs : (0 <= n)%Z -> Forall (bnd k) vs -> (Z.of_nat (length vs) <= 2 ^ 19)%Z ->
    is_finite (@mv_GetMean I (@mv_of I n vs) : f32) = true /\
    Rabs (B2R (@mv_GetMean I (@mv_of I n vs) : f32) - mean (reals (last_or_all n vs)))
    <= INR (length vs) * / 524288 * bpow radix2 k.
  Proof.
    intros Hn HF HL. pose proof (bpow_gt_0 radix2 k) as HB.
    destruct (list_snoc vs) as [->|(vs0 & c & ->)].
    - unfold last_or_all. cbn [mv_of fold_left]. destruct (ofZ_finite 0 ltac:(lia)) as (F0 & R0).
      change (@mv_GetMean I (@NewMeanVar I n)) with (f32_of_Z 0). split; [exact F0|]. rewrite R0.
      replace (mean (reals (if (n =? 0)%Z then [] else lastn (Z.to_nat n) []))) with 0.
      + rewrite Rminus_0_r, Rabs_R0. cbn [length INR]. lra.
      + destruct (n =? 0)%Z; [reflexivity|]. unfold lastn. rewrite skipn_nil. reflexivity.
    - destruct (window_size_of n (vs0 ++ [c]) Hn) as (W1 & W2 & W3); [destruct vs0; discriminate|].
      pose proof (last_or_all_within n _ HF) as HFl.
      destruct (var_inv_of n (vs0 ++ [c]) Hn HF HL) as (I1 & I2 & I3).
      assert (Hpos : (0 < length (vs0 ++ [c]))%nat) by (rewrite app_length; cbn [length]; lia).
      unfold mv_GetMean. rewrite W1, I2. rewrite (proj2 (Z.eqb_neq _ 0)) by lia.
      rewrite rev_app_distr in I3. cbn [rev app] in I3. rewrite rev_involutive, rev_length in I3. destruct I3 as (J1 & _ & J3 & _).
      change (@flt I) with f32 in *. rewrite J1.
      rewrite (last_or_all_before n vs0 c Hn) in *. set (b := before n vs0) in *.
      rewrite app_length in W3, HL. cbn [length] in W3, HL. assert (Lb : length (b ++ [c]) = S (length b)) by (rewrite app_length; cbn [length]; lia).
      rewrite Lb in *.
      assert (K : near k (2 * (length vs0 + 1)) (S (length b)) (Bplus mode_NE c (@mv_sum I (@mv_of I n (vs0 ++ [c])))) (Fsum (b ++ [c]))).
      { eapply near_mono; [| |apply (near_addC (2 * length vs0) (S (length b))); auto]; try lia. rewrite app_length in W3. cbn [length] in W3. lia. }
      destruct K as (F & H).
      destruct (avg_err (2 ^ 20) ltac:(lia) k ltac:(lia) (2 * (length vs0 + 1)) (S (length b))
                  (Bplus mode_NE c (@mv_sum I (@mv_of I n (vs0 ++ [c])))) (Fsum (b ++ [c]))) as (F1 & E1); auto; try lia.
      { rewrite app_length in W3. cbn [length] in W3. lia. }
      { rewrite <- Lb. apply Fsum_bound. exact HFl. }
      split; [exact F1|].
      assert (Em : mean (reals (b ++ [c])) = Fsum (b ++ [c]) / INR (S (length b))).
      { rewrite mean_eq by (intros E0; apply map_eq_nil in E0; auto). unfold reals. rewrite map_length, Lb. reflexivity. }
      rewrite Em. rewrite app_length. cbn [length]. eapply Rle_trans; [exact E1|]. rewrite mult_INR. change (INR 2) with 2. right. field.
  Qed.

  Lemma ofZ64_exact' z : (1 <= z <= 2 ^ 20)%Z -> is_finite (f64_of_Z z) = true /\ B2R (f64_of_Z z) = IZR z.
  Proof.
    intros Hz. unfold f64_of_Z.
    pose proof (binary_normalize_correct 53 1024 (eq_refl _) (eq_refl _) mode_NE z 0 false) as H. cbn [round_mode] in H.
    assert (E : F2R (Float radix2 z 0) = IZR z) by (unfold F2R; cbn; ring).
    rewrite E in H.
    assert (G : generic_format radix2 fexp64 (IZR z)).
    { rewrite <- E. apply generic_format_F2R. intros _. unfold cexp. rewrite E.
      assert (M : (mag radix2 (IZR z) <= 21)%Z).
      { apply mag_le_bpow; [apply not_0_IZR; lia|]. rewrite Rabs_pos_eq by (apply IZR_le; lia).
        change (bpow radix2 21) with (IZR (2 ^ 21)). apply IZR_lt. lia. }
      unfold SpecFloat.fexp, SpecFloat.emin. lia. }
    rewrite round_generic in H; [|exact _|exact G].
    rewrite Rlt_bool_true in H.
    - destruct H as (HR & HF & _). split; assumption.
    - rewrite Rabs_pos_eq by (apply IZR_le; lia). apply Rlt_trans with (bpow radix2 21); [|apply bpow_lt; lia].
      change (bpow radix2 21) with (IZR (2 ^ 21)). apply IZR_lt. lia.
  Qed.

  Lemma rnd64_close x : Rabs (rnd64 x - x) <= e53 * Rabs x + bpow radix2 (-1000).
  Proof.
    destruct (rnd64_err x) as (d & e & E & Hd & He). rewrite E.
    replace (x * (1 + d) + e - x) with (x * d + e) by ring.
    eapply Rle_trans; [apply Rabs_triang|]. apply Rplus_le_compat; [|exact He].
    rewrite Rabs_mult, Rmult_comm. apply Rmult_le_compat_r; [apply Rabs_pos|exact Hd].
  Qed.

  Lemma var_err n vs : (0 <= n)%Z -> Forall (bnd k) vs -> (Z.of_nat (length vs) <= 2 ^ 19)%Z ->
    is_finite (@mv_GetVariance I (@mv_of I n vs) : f32) = true /\
    Rabs (B2R (@mv_GetVariance I (@mv_of I n vs) : f32) - variance (reals (last_or_all n vs)))
    <= INR (length vs) * / 131072 * bpow radix2 (2 * k).
  Proof.
    intros Hn HF HL. pose proof (bpow_gt_0 radix2 k) as HB. pose proof (bpow_gt_0 radix2 (2 * k)) as HB2.
    destruct (mean_err n vs Hn HF HL) as (FM & EM).
    destruct (list_snoc vs) as [->|(vs0 & c & ->)].
    - unfold last_or_all. cbn [mv_of fold_left]. destruct (ofZ_finite 0 ltac:(lia)) as (F0 & R0).
      change (@mv_GetVariance I (@NewMeanVar I n)) with (f32_of_Z 0). split; [exact F0|]. rewrite R0.
      replace (variance (reals (if (n =? 0)%Z then [] else lastn (Z.to_nat n) []))) with 0.
      + rewrite Rminus_0_r, Rabs_R0. cbn [length INR]. lra.
      + destruct (n =? 0)%Z; [reflexivity|]. unfold lastn. rewrite skipn_nil. reflexivity.
    - destruct (window_size_of n (vs0 ++ [c]) Hn) as (W1 & W2 & W3); [destruct vs0; discriminate|].
      pose proof (last_or_all_within n _ HF) as HFl.
      destruct (var_inv_of n (vs0 ++ [c]) Hn HF HL) as (I1 & I2 & I3).
      assert (Hpos : (0 < length (vs0 ++ [c]))%nat) by (rewrite app_length; cbn [length]; lia).
      unfold mv_GetMean in FM, EM. unfold mv_GetVariance.
      rewrite W1, I2 in *. rewrite (proj2 (Z.eqb_neq _ 0)) in * by lia.
      rewrite rev_app_distr in I3. cbn [rev app] in I3. rewrite rev_involutive, rev_length in I3. destruct I3 as (J1 & _ & _ & J4).
      change (@flt I) with f32 in *. rewrite J1 in *. cbv zeta.
      set (mf := (Bdiv mode_NE (Bplus mode_NE c (@mv_sum I (@mv_of I n (vs0 ++ [c])))) (f32_of_Z (Z.of_nat (length (last_or_all n (vs0 ++ [c])))))) : f32) in *.
      change (@fdiv I (@fadd I c (@mv_sum I (@mv_of I n (vs0 ++ [c])))) (@fofZ I (Z.of_nat (length (last_or_all n (vs0 ++ [c])))))) with mf in *.
      set (s2 := (@mv_sum2 I (@mv_of I n (vs0 ++ [c]))) : f32) in *. change (@mv_sum2 I (@mv_of I n (vs0 ++ [c]))) with s2.
      clearbody mf s2. clear I1 I2 J1 W1.
      assert (HFc : bnd k c) by (apply Forall_app in HF as (_ & Hc); inversion Hc; assumption).
      rewrite (last_or_all_before n vs0 c Hn) in *. set (b := before n vs0) in *.
      assert (Lb : length (b ++ [c]) = S (length b)) by (rewrite app_length; cbn [length]; lia).
      rewrite Lb in *. rewrite app_length in W3, HL, EM |- *. cbn [length] in W3, HL, EM |- *.
      set (w := S (length b)) in *. set (N := (length vs0 + 1)%nat) in *.
      destruct J4 as (F2 & E2).
      destruct (ofZ64_exact' (Z.of_nat w) ltac:(lia)) as (Fw & Rw). rewrite <- INR_IZR_INZ in Rw.
      destruct (square_exact c (proj1 HFc)) as (Fc & Rc). destruct (square_exact mf FM) as (Fm & Rm).
      destruct (f2d_exact s2 F2) as (Fd & Rd).
      unfold dsquare. cbn [d2f dsub ddiv dadd dmul f2d dofZ ieee].
      set (qc := Bmult mode_NE (f32_to_f64 c) (f32_to_f64 c)) in *. set (qm := Bmult mode_NE (f32_to_f64 mf) (f32_to_f64 mf)) in *.
      set (d2 := f32_to_f64 s2) in *. set (dw := f64_of_Z (Z.of_nat w)) in *. clearbody qc qm d2 dw.
      assert (W : 1 <= INR w) by (change 1 with (INR 1); apply le_INR; lia).
      assert (Ww : INR w <= 1048576) by (rewrite INR_IZR_INZ; change 1048576 with (IZR (2 ^ 20)); apply IZR_le; lia).
      assert (N1 : 1 <= INR N) by (change 1 with (INR 1); apply le_INR; lia).
      assert (N2 : INR N <= 524288) by (rewrite INR_IZR_INZ; change 524288 with (IZR (2 ^ 19)); apply IZR_le; lia).
      assert (Hinv : 0 < / INR w <= 1).
      { split; [apply Rinv_0_lt_compat; lra|]. rewrite <- Rinv_1. apply Rinv_le_contravar; lra. }
      set (B := bpow radix2 (2 * k)) in *. set (S2 := Fsum2 (b ++ [c])).
      set (tiny := bpow radix2 (-1000)).
      assert (Htiny : 0 < tiny) by apply bpow_gt_0.
      assert (Htiny2 : tiny <= / 4503599627370496 * B).
      { change (/ 4503599627370496) with (bpow radix2 (-52)). unfold tiny, B. rewrite <- bpow_plus. apply bpow_le. lia. }
      (* the sum of squares *)
      set (T := B2R c * B2R c + B2R s2).
      assert (HT : Rabs (T / INR w - S2 / INR w) <= (INR N - 1) * (28 * / 16777216) * B).
      { unfold Rdiv. rewrite <- Rmult_minus_distr_r, Rabs_mult, (Rabs_pos_eq (/ INR w)) by lra.
        replace (T - S2) with (B2R s2 - Fsum2 b) by (unfold T, S2; rewrite Fsum2_app, Fsum2_1; ring).
        eapply Rle_trans; [apply Rmult_le_compat_r; [lra|exact E2]|]. unfold u24.
        rewrite mult_INR. change (INR 2) with 2. replace (INR (length vs0)) with (INR N - 1) by (unfold N; rewrite plus_INR; cbn; ring).
        replace (2 * (INR N - 1) * (2 * / 16777216) * (INR w + 6) * B * / INR w)
          with ((INR N - 1) * (4 * / 16777216) * B * (1 + 6 * / INR w)) by (field; lra).
        replace ((INR N - 1) * (28 * / 16777216) * B) with ((INR N - 1) * (4 * / 16777216) * B * 7) by ring.
        apply Rmult_le_compat_l; [|lra]. apply Rmult_le_pos; [apply Rmult_le_pos|]; lra. }
      assert (HS : Rabs (S2 / INR w) <= B).
      { unfold Rdiv. rewrite Rabs_mult, (Rabs_pos_eq (/ INR w)) by lra.
        replace B with (INR w * B * / INR w) by (field; lra). apply Rmult_le_compat_r; [lra|]. rewrite <- Lb. apply Fsum2_bound. exact HFl. }
      assert (HNB : INR N * B <= 524288 * B) by (apply Rmult_le_compat_r; lra).
      assert (HNB1 : B <= INR N * B) by (rewrite <- (Rmult_1_l B) at 1; apply Rmult_le_compat_r; lra).
      replace ((INR N - 1) * (28 * / 16777216) * B) with (28 * / 16777216 * (INR N * B - B)) in HT by ring.
      assert (Ht : Rabs (T / INR w) <= 2 * B).
      { replace (T / INR w) with (S2 / INR w + (T / INR w - S2 / INR w)) by ring. eapply Rle_trans; [apply Rabs_triang|]. lra. }
      set (t := T / INR w) in *. assert (ET : T = t * INR w) by (unfold t; field; lra).
      assert (HTb : Rabs T <= bpow radix2 (2 * k + 22)).
      { rewrite ET, Rabs_mult, (Rabs_pos_eq (INR w)) by lra. rewrite bpow_plus. fold B. change (bpow radix2 22) with 4194304.
        apply Rle_trans with (2 * B * 1048576); [apply Rmult_le_compat; auto using Rabs_pos; lra|lra]. }
      pose proof (Bplus_correct 53 1024 _ _ mode_NE qc d2 Fc Fd) as PA. cbn [round_mode] in PA.
      rewrite Rc, Rd in PA. fold T in PA. rewrite (no_overflow64 _ (2 * k + 22)) in PA; [|lia|exact HTb].
      destruct PA as (RA & FA & _). set (A := Bplus mode_NE qc d2) in *. clearbody A.
      change (B2R A = rnd64 T) in RA.
      assert (HA : Rabs (B2R A / INR w - t) <= / 2251799813685248 * B).
      { replace (B2R A / INR w - t) with ((B2R A - T) * / INR w) by (unfold t; field; lra).
        rewrite Rabs_mult, (Rabs_pos_eq (/ INR w)) by lra. rewrite RA.
        eapply Rle_trans; [apply Rmult_le_compat_r; [lra|apply rnd64_close]|]. fold tiny.
        rewrite ET, Rabs_mult, (Rabs_pos_eq (INR w)) by lra.
        replace ((e53 * (Rabs t * INR w) + tiny) * / INR w) with (e53 * Rabs t + tiny * / INR w) by (field; lra).
        unfold e53. assert (tiny * / INR w <= tiny * 1) by (apply Rmult_le_compat_l; lra). lra. }
      assert (HA2 : Rabs (B2R A / INR w) <= 3 * B).
      { replace (B2R A / INR w) with (t + (B2R A / INR w - t)) by ring. eapply Rle_trans; [apply Rabs_triang|]. lra. }
      pose proof (Bdiv_correct 53 1024 _ _ mode_NE A dw ltac:(rewrite Rw; lra)) as PQ. cbn [round_mode] in PQ.
      rewrite Rw in PQ. rewrite (no_overflow64 _ (2 * k + 2)) in PQ; [|lia|].
      2: { eapply Rle_trans; [exact HA2|]. rewrite bpow_plus. fold B. change (bpow radix2 2) with 4. lra. }
      destruct PQ as (RQ & FQ & _). rewrite FA in FQ. set (Q := Bdiv mode_NE A dw) in *. clearbody Q.
      assert (HQ : Rabs (B2R Q - t) <= / 562949953421312 * B).
      { replace (B2R Q - t) with ((B2R Q - B2R A / INR w) + (B2R A / INR w - t)) by ring.
        eapply Rle_trans; [apply Rabs_triang|]. rewrite RQ. change (round radix2 (SpecFloat.fexp 53 1024) ZnearestE (B2R A / INR w)) with (rnd64 (B2R A / INR w)).
        pose proof (rnd64_close (B2R A / INR w)) as K. fold tiny in K. unfold e53 in K. lra. }
      (* the mean *)
      set (mu := mean (reals (b ++ [c]))) in *.
      assert (Emu : mu = Fsum (b ++ [c]) / INR w).
      { unfold mu. rewrite mean_eq by (intros E0; apply map_eq_nil in E0; auto). unfold reals. rewrite map_length, Lb. reflexivity. }
      assert (Hmu : Rabs mu <= bpow radix2 k).
      { rewrite Emu. unfold Rdiv. rewrite Rabs_mult, (Rabs_pos_eq (/ INR w)) by lra.
        replace (bpow radix2 k) with (INR w * bpow radix2 k * / INR w) by (field; lra).
        apply Rmult_le_compat_r; [lra|]. rewrite <- Lb. apply Fsum_bound. exact HFl. }
      set (delta := INR N * / 524288 * bpow radix2 k) in *.
      assert (Hdelta : 0 <= delta <= bpow radix2 k).
      { unfold delta. split; [apply Rmult_le_pos; lra|]. rewrite <- (Rmult_1_l (bpow radix2 k)) at 2. apply Rmult_le_compat_r; lra. }
      assert (HM : Rabs (B2R mf * B2R mf - mu * mu) <= 96 * / 16777216 * (INR N * B)).
      { replace (B2R mf * B2R mf - mu * mu) with ((B2R mf - mu) * ((B2R mf - mu) + 2 * mu)) by ring.
        rewrite Rabs_mult. apply Rle_trans with (delta * (3 * bpow radix2 k)).
        - apply Rmult_le_compat; auto using Rabs_pos. eapply Rle_trans; [apply Rabs_triang|].
          rewrite Rabs_mult, (Rabs_pos_eq 2) by lra. lra.
        - unfold delta, B. rewrite <- bk_sq. right. field. }
      assert (Hmu2 : Rabs (mu * mu) <= B).
      { rewrite Rabs_mult. unfold B. rewrite <- bk_sq. apply Rmult_le_compat; auto using Rabs_pos. }
      assert (Hdiff : Rabs (B2R Q - B2R mf * B2R mf) <= 7 * B).
      { replace (B2R Q - B2R mf * B2R mf) with ((B2R Q - t) + t - (B2R mf * B2R mf - mu * mu) - mu * mu) by ring.
        unfold Rminus at 1. eapply Rle_trans; [apply Rabs_triang|]. rewrite Rabs_Ropp.
        unfold Rminus at 1. eapply Rle_trans; [apply Rplus_le_compat_r, Rabs_triang|]. rewrite Rabs_Ropp.
        eapply Rle_trans; [apply Rplus_le_compat_r, Rplus_le_compat_r, Rabs_triang|]. lra. }
      pose proof (Bminus_correct 53 1024 _ _ mode_NE Q qm FQ Fm) as PD. cbn [round_mode] in PD.
      rewrite Rm in PD.
      assert (Hd3 : Rabs (B2R Q - B2R mf * B2R mf) <= bpow radix2 (2 * k + 3)).
      { eapply Rle_trans; [exact Hdiff|]. rewrite bpow_plus. fold B. change (bpow radix2 3) with 8. lra. }
      rewrite (no_overflow64 _ (2 * k + 3)) in PD; [|lia|exact Hd3].
      destruct PD as (RD & FD & _).
      destruct (d2f_rnd (Bminus mode_NE Q qm) (2 * k + 3)) as (F1 & R1); [lia|exact FD| |].
      { rewrite RD. apply abs_round_le_generic; try exact _; [apply format64_bpow; lia|exact Hd3]. }
      split; [exact F1|]. rewrite R1, RD.
      change (round radix2 (SpecFloat.fexp 53 1024) ZnearestE (B2R Q - B2R mf * B2R mf)) with (rnd64 (B2R Q - B2R mf * B2R mf)).
      pose proof (double_round (B2R Q - B2R mf * B2R mf)) as HV. unfold u25 in HV.
      pose proof (eta_small (2 * k) ltac:(lia)) as Eta. fold B in Eta. unfold u24 in Eta.
      set (V := rnd (rnd64 (B2R Q - B2R mf * B2R mf))) in *.
      assert (Ev : variance (reals (b ++ [c])) = S2 / INR w - mu * mu).
      { rewrite variance_eq by (intros E0; apply map_eq_nil in E0; auto). fold mu. unfold reals. rewrite !map_length, map_map, Lb.
        fold w. unfold S2, Fsum2. ring. }
      rewrite Ev.
      replace (V - (S2 / INR w - mu * mu))
        with ((V - (B2R Q - B2R mf * B2R mf)) + (B2R Q - t) + (t - S2 / INR w) - (B2R mf * B2R mf - mu * mu)) by ring.
      unfold Rminus at 1. eapply Rle_trans; [apply Rabs_triang|]. rewrite Rabs_Ropp.
      eapply Rle_trans; [apply Rplus_le_compat_r, Rabs_triang|].
      eapply Rle_trans; [apply Rplus_le_compat_r, Rplus_le_compat_r, Rabs_triang|].
      replace (INR N * / 131072 * B) with (128 * / 16777216 * (INR N * B)) by (field). lra.
  Qed.

  Lemma sqrt_close a b : 0 <= a -> 0 <= b -> Rabs (sqrt a - sqrt b) * (sqrt a + sqrt b) = Rabs (a - b).
  Proof.
    intros Ha Hb. pose proof (sqrt_pos a). pose proof (sqrt_pos b).
    rewrite <- (Rabs_pos_eq (sqrt a + sqrt b)) at 1 by lra. rewrite <- Rabs_mult. f_equal.
    replace ((sqrt a - sqrt b) * (sqrt a + sqrt b)) with (sqrt a * sqrt a - sqrt b * sqrt b) by ring.
    rewrite !sqrt_sqrt by assumption. reflexivity.
  Qed.

  Lemma var_le (l : list R) : Forall (fun x => Rabs x <= bpow radix2 k) l -> 0 <= variance l <= bpow radix2 (2 * k).
  Proof.
    intros H. split; [apply variance_nonneg|]. pose proof (bpow_gt_0 radix2 (2 * k)).
    destruct l as [|x l]; [cbn [variance map mean]; lra|].
    rewrite variance_eq by discriminate. set (m := mean (x :: l)). pose proof (INR_length_pos (x :: l) ltac:(discriminate)) as Hp.
    assert (Hs : Rabs (Rsum (map (fun x => x * x) (x :: l))) <= INR (length (x :: l)) * bpow radix2 (2 * k)).
    { rewrite <- (map_length (fun x => x * x)). apply Rsum_bound. apply Forall_map. eapply Forall_impl; [|exact H].
      cbn beta. intros y Hy. rewrite Rabs_mult, <- bk_sq. apply Rmult_le_compat; auto using Rabs_pos. }
    set (Sq := Rsum (map (fun x => x * x) (x :: l))) in *. clearbody Sq m.
    assert (Sq / INR (length (x :: l)) <= bpow radix2 (2 * k)).
    { replace (bpow radix2 (2 * k)) with (INR (length (x :: l)) * bpow radix2 (2 * k) / INR (length (x :: l))) by (field; lra).
      unfold Rdiv. apply Rmult_le_compat_r; [apply Rlt_le, Rinv_0_lt_compat; exact Hp|].
      pose proof (Rle_abs Sq). lra. }
    pose proof (Rle_0_sqr m) as Hm. unfold Rsqr in Hm. lra.
  Qed.

  Lemma sd_err n vs : (0 <= n)%Z -> Forall (bnd k) vs -> (Z.of_nat (length vs) <= 2 ^ 19)%Z ->
    let f : f32 := @mv_GetStandardDeviation I (@mv_of I n vs) in
    let v := variance (reals (last_or_all n vs)) in
    let e := INR (length vs) * / 131072 * bpow radix2 (2 * k) in
    (is_finite f = true \/ (is_nan f = true /\ v <= e)) /\
    (is_finite f = true -> 0 <= B2R f /\
       Rabs (B2R f - sqrt v) <= sqrt (INR (length vs)) * / 256 * bpow radix2 k /\
       (0 < v -> Rabs (B2R f - sqrt v) <= 2 * e / sqrt v)).
  Proof.
    intros Hn HF HL f v e. pose proof (bpow_gt_0 radix2 k) as HB. pose proof (bpow_gt_0 radix2 (2 * k)) as HB2.
    destruct (Nat.eq_dec (length vs) 0) as [L0|L0].
    { apply length_zero_iff_nil in L0. subst vs. change f with (B754_zero false : f32) in *.
      replace v with 0 in *. 2: { unfold v, last_or_all. destruct (n =? 0)%Z; [reflexivity|]. unfold lastn. rewrite skipn_nil. reflexivity. }
      split; [left; reflexivity|]. intros _. cbn [B2R]. rewrite sqrt_0, Rminus_0_r, Rabs_R0. cbn [length INR]. rewrite sqrt_0.
      split; [lra|]. split; [lra|]. intros H. lra. }
    destruct (var_err n vs Hn HF HL) as (FV & EV). fold v in EV. fold e in EV.
    assert (Hv : 0 <= v <= bpow radix2 (2 * k)).
    { apply var_le. unfold reals. apply Forall_map. eapply Forall_impl; [|apply (last_or_all_within n); exact HF]. intros x Hx. apply Hx. }
    unfold mv_GetStandardDeviation in f. set (V := (@mv_GetVariance I (@mv_of I n vs)) : f32) in *. change f with (Bsqrt mode_NE V) in *.
    clear f. clearbody V v.
    pose proof (Bsqrt_correct 24 128 _ _ mode_NE V) as (SR & SF & _). cbn [round_mode] in SR.
    assert (N0 : 0 <= INR (length vs)) by apply pos_INR.
    assert (N2 : INR (length vs) <= 524288) by (rewrite INR_IZR_INZ; change 524288 with (IZR (2 ^ 19)); apply IZR_le; lia).
    assert (He0 : 0 <= e <= 4 * bpow radix2 (2 * k)).
    { unfold e. split; [apply Rmult_le_pos; lra|]. apply Rmult_le_compat_r; lra. }
    split.
    - destruct V as [s|s| |s m ex Hb]; try discriminate FV; [left; exact SF|]. destruct s; [|left; exact SF].
      right. split; [reflexivity|].
      assert (B2R (B754_finite true m ex Hb : f32) < 0).
      { cbn [B2R cond_Zopp]. apply F2R_lt_0. cbn. lia. }
      apply Rabs_le_inv in EV. lra.
    - intros FS.
      assert (HV : 0 <= B2R V).
      { destruct V as [s|s| |s m ex Hb]; try discriminate FV; [cbn; lra|]. destruct s; [rewrite SF in FS; discriminate|].
        cbn [B2R cond_Zopp]. apply F2R_ge_0. cbn. lia. }
      change (round radix2 (SpecFloat.fexp 24 128) ZnearestE (sqrt (B2R V))) with (rnd (sqrt (B2R V))) in SR.
      rewrite SR. split; [apply rnd_nonneg, sqrt_pos|].
      pose proof (single_round (sqrt (B2R V))) as HR. pose proof (sqrt_pos (B2R V)) as SP. rewrite (Rabs_pos_eq (sqrt (B2R V))) in HR by exact SP.
      assert (HVb : sqrt (B2R V) <= 3 * bpow radix2 k).
      { rewrite <- (sqrt_Rsqr (3 * bpow radix2 k)) by lra. apply sqrt_le_1_alt. unfold Rsqr. apply Rabs_le_inv in EV.
        replace (3 * bpow radix2 k * (3 * bpow radix2 k)) with (9 * bpow radix2 (2 * k)) by (rewrite <- bk_sq; ring). lra. }
      pose proof (eta_small k ltac:(lia)) as Eta. unfold u24 in Eta. unfold u25 in HR.
      assert (HR2 : Rabs (rnd (sqrt (B2R V)) - sqrt (B2R V)) <= 4 * / 16777216 * bpow radix2 k) by lra.
      pose proof (sqrt_close (B2R V) v HV (proj1 Hv)) as HC. pose proof (sqrt_pos v) as SV.
      set (D := Rabs (sqrt (B2R V) - sqrt v)) in *. assert (HD0 : 0 <= D) by apply Rabs_pos.
      assert (Htri : Rabs (rnd (sqrt (B2R V)) - sqrt v) <= 4 * / 16777216 * bpow radix2 k + D).
      { replace (rnd (sqrt (B2R V)) - sqrt v) with ((rnd (sqrt (B2R V)) - sqrt (B2R V)) + (sqrt (B2R V) - sqrt v)) by ring.
        eapply Rle_trans; [apply Rabs_triang|]. unfold D. lra. }
      assert (N1 : 1 <= INR (length vs)) by (change 1 with (INR 1); apply le_INR; lia).
        split.
        * assert (HD : D <= sqrt e).
          { assert (Dle : D <= sqrt (B2R V) + sqrt v).
            { unfold D. unfold Rminus. eapply Rle_trans; [apply Rabs_triang|]. rewrite Rabs_Ropp, !Rabs_pos_eq by assumption. lra. }
            rewrite <- (sqrt_Rsqr D HD0). apply sqrt_le_1_alt. unfold Rsqr.
            apply Rle_trans with (D * (sqrt (B2R V) + sqrt v)); [apply Rmult_le_compat_l; assumption|]. rewrite HC. exact EV. }
          assert (Hse : sqrt e = sqrt (INR (length vs)) * (sqrt (/ 131072) * bpow radix2 k)).
          { unfold e. rewrite <- bk_sq. rewrite Rmult_assoc, sqrt_mult_alt by lra.
            f_equal. rewrite sqrt_mult_alt by lra. f_equal. apply sqrt_square. lra. }
          assert (H17 : sqrt (/ 131072) <= / 360).
          { rewrite <- (sqrt_Rsqr (/ 360)) by lra. apply sqrt_le_1_alt. unfold Rsqr. lra. }
          assert (Hs1 : 1 <= sqrt (INR (length vs))) by (rewrite <- sqrt_1; apply sqrt_le_1_alt; exact N1).
          assert (H1 : sqrt e <= sqrt (INR (length vs)) * (/ 360 * bpow radix2 k)).
          { rewrite Hse. apply Rmult_le_compat_l; [lra|]. apply Rmult_le_compat_r; lra. }
          assert (H2 : bpow radix2 k <= sqrt (INR (length vs)) * bpow radix2 k).
          { rewrite <- (Rmult_1_l (bpow radix2 k)) at 1. apply Rmult_le_compat_r; lra. }
          replace (sqrt (INR (length vs)) * / 256 * bpow radix2 k) with (/ 256 * (sqrt (INR (length vs)) * bpow radix2 k)) by ring.
          replace (sqrt (INR (length vs)) * (/ 360 * bpow radix2 k)) with (/ 360 * (sqrt (INR (length vs)) * bpow radix2 k)) in H1 by ring. lra.
        * intros Hv0. pose proof (sqrt_lt_R0 v Hv0) as Sv0.
          assert (HD : D <= e / sqrt v).
          { apply Rmult_le_reg_r with (sqrt v); [exact Sv0|]. replace (e / sqrt v * sqrt v) with e by (field; lra).
            apply Rle_trans with (D * (sqrt (B2R V) + sqrt v)); [apply Rmult_le_compat_l; lra|]. rewrite HC. exact EV. }
          assert (Hsv : sqrt v <= bpow radix2 k).
          { rewrite <- (sqrt_Rsqr (bpow radix2 k)) by lra. apply sqrt_le_1_alt. unfold Rsqr. rewrite bk_sq. lra. }
          assert (Heb : / 131072 * bpow radix2 k <= e / sqrt v).
          { apply Rmult_le_reg_r with (sqrt v); [exact Sv0|]. replace (e / sqrt v * sqrt v) with e by (field; lra).
            apply Rle_trans with (/ 131072 * bpow radix2 k * bpow radix2 k); [apply Rmult_le_compat_l; lra|].
            rewrite Rmult_assoc, bk_sq. unfold e. apply Rmult_le_compat_r; lra. }
          replace (2 * e / sqrt v) with (e / sqrt v + e / sqrt v) by (field; lra). lra.
  Qed.
End Var.
