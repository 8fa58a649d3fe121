(** C124: averages lie within the range of what they average, follow it monotonically, and do
    not depend on the unit and the zero of the prices. *)
From Coq Require Import Reals ZArith Bool String Lia Lra.
From Coq Require Import List.
From Flocq Require Import Core BinarySingleNaN.
From Verif.Model Require Import Outcome Machine Types History Indicators Eval MachineR MachineIEEE.
From Verif.Spec Require Import SeriesSpec IndicatorSpec DriftSpec RangeSpec.
From Verif.Proofs Require Import Base FloatLemmas SeriesProofs LastNProofs MeanProofs IndicatorProofs DriftProofs EmaDrift.
From Verif.Properties Require IndicatorProps DriftProps EvalProps.
Import ListNotations.
Local Open Scope R_scope.

(** ** Lists of numbers *)
Lemma Forall_lastn {A} (P : A -> Prop) n l : Forall P l -> Forall P (lastn n l).
Proof. rewrite !Forall_forall. intros H x Hx. apply H. unfold lastn in Hx. rewrite <- (firstn_skipn (List.length l - n) l). apply in_or_app. right. exact Hx. Qed.
Lemma Forall2_length_eq {A B} (P : A -> B -> Prop) l l' : Forall2 P l l' -> List.length l = List.length l'.
Proof. induction 1; cbn; congruence. Qed.
Lemma Forall2_skipn {A B} (P : A -> B -> Prop) l l' n : Forall2 P l l' -> Forall2 P (skipn n l) (skipn n l').
Proof. intros H. revert n. induction H; intros [|n]; cbn [skipn]; auto. Qed.
Lemma Forall2_firstn {A B} (P : A -> B -> Prop) l l' n : Forall2 P l l' -> Forall2 P (firstn n l) (firstn n l').
Proof. intros H. revert n. induction H; intros [|n]; cbn [firstn]; auto. Qed.
Lemma Forall2_lastn {A B} (P : A -> B -> Prop) l l' n : Forall2 P l l' -> Forall2 P (lastn n l) (lastn n l').
Proof. intros H. unfold lastn. rewrite <- (Forall2_length_eq _ _ _ H). apply Forall2_skipn. exact H. Qed.
Lemma Forall2_rev {A B} (P : A -> B -> Prop) l l' : Forall2 P l l' -> Forall2 P (rev l) (rev l').
Proof. induction 1; cbn [rev]; [constructor|]. apply Forall2_app; auto. Qed.

Lemma mean_between lo hi l : l <> [] -> Forall (between lo hi) l -> between lo hi (mean l).
Proof.
  intros Hne HF. rewrite mean_eq by exact Hne. pose proof (INR_length_pos l Hne) as P.
  assert (G : INR (List.length l) * lo <= Rsum l <= INR (List.length l) * hi).
  { clear - HF. induction HF as [|x l Hx HF IH]; [cbn; lra|]. cbn [List.length]. rewrite S_INR.
    unfold Rsum in *. cbn [fold_right]. unfold between in Hx. lra. }
  split.
  - apply Rmult_le_reg_r with (1 := P). unfold Rdiv. rewrite Rmult_assoc, Rinv_l by lra. lra.
  - apply Rmult_le_reg_r with (1 := P). unfold Rdiv. rewrite Rmult_assoc, Rinv_l by lra. lra.
Qed.

Lemma mean_le l l' : Forall2 Rle l l' -> mean l <= mean l'.
Proof.
  intros H. destruct H as [|x y l l' Hx H]; [apply Rle_refl|]. rewrite !mean_eq by discriminate.
  cbn [List.length]. rewrite <- (Forall2_length_eq _ _ _ H).
  apply Rmult_le_compat_r; [apply Rlt_le, Rinv_0_lt_compat, lt_0_INR; lia|].
  unfold Rsum. cbn [fold_right]. apply Rplus_le_compat; [exact Hx|]. induction H; cbn [fold_right]; lra.
Qed.

Lemma mean_affine a b l : l <> [] -> mean (map (fun x => a * x + b) l) = a * mean l + b.
Proof.
  intros Hne. rewrite (mean_eq l Hne), (mean_eq (map _ l)) by (destruct l; [congruence|discriminate]). rewrite map_length.
  pose proof (INR_length_pos l Hne) as P.
  assert (G : Rsum (map (fun x => a * x + b) l) = a * Rsum l + INR (List.length l) * b).
  { clear. induction l as [|x l IH]; [cbn; lra|]. cbn [map List.length]. rewrite S_INR. unfold Rsum in *. cbn [fold_right]. rewrite IH. lra. }
  rewrite G. field. lra.
Qed.

Lemma variance_affine a b l : variance (map (fun x => a * x + b) l) = a ^ 2 * variance l.
Proof.
  destruct l as [|x l]; [cbn; ring|]. unfold variance. rewrite mean_affine by discriminate. rewrite map_map.
  set (m := mean (x :: l)). transitivity (mean (map (fun v => a ^ 2 * v + 0) (map (fun x => (x - m) ^ 2) (x :: l)))).
  - f_equal. rewrite map_map. apply map_ext. intros v. ring.
  - rewrite mean_affine by discriminate. ring.
Qed.

(** The standard deviation is at most half the range. *)
Lemma variance_range lo hi l : l <> [] -> Forall (between lo hi) l -> variance l <= ((hi - lo) / 2) ^ 2.
Proof.
  intros Hne HF. pose proof (mean_between lo hi l Hne HF) as [M1 M2]. rewrite variance_eq by exact Hne.
  pose proof (INR_length_pos l Hne) as P.
  assert (G : Rsum (map (fun x => x * x) l) <= (lo + hi) * Rsum l - INR (List.length l) * (lo * hi)).
  { clear - HF. induction HF as [|x l Hx HF IH]; [cbn; lra|]. cbn [map List.length]. rewrite S_INR.
    unfold Rsum in *. cbn [fold_right]. unfold between in Hx. nra. }
  assert (G2 : Rsum (map (fun x => x * x) l) / INR (List.length l) <= (lo + hi) * mean l - lo * hi).
  { rewrite mean_eq by exact Hne. apply Rmult_le_reg_r with (1 := P). unfold Rdiv. rewrite Rmult_assoc, Rinv_l by lra.
    replace (((lo + hi) * (Rsum l * / INR (List.length l)) - lo * hi) * INR (List.length l))
      with ((lo + hi) * Rsum l * (/ INR (List.length l) * INR (List.length l)) - INR (List.length l) * (lo * hi)) by ring.
    rewrite Rinv_l by lra. lra. }
  pose proof (pow2_ge_0 (mean l - (lo + hi) / 2)). nra.
Qed.

(** ** Exponential averages *)
Lemma Rema_between w lo hi vs : 0 <= w <= 1 -> vs <> [] -> Forall (between lo hi) vs -> between lo hi (Rema w vs).
Proof.
  intros Hw Hne HF. destruct vs as [|v vs]; [congruence|]. cbn [Rema]. apply Forall_cons_iff in HF as (Hv & HF).
  clear Hne. revert v Hv. induction HF as [|y vs Hy HF IH]; intros v Hv; [exact Hv|]. cbn [fold_left]. apply IH.
  unfold between in *. nra.
Qed.

Lemma Rema_le w vs vs' : 0 <= w <= 1 -> Forall2 Rle vs vs' -> Rema w vs <= Rema w vs'.
Proof.
  intros Hw H. destruct H as [|x y xs ys Hxy H]; cbn [Rema]; [apply Rle_refl|].
  revert x y Hxy. induction H as [|x1 y1 xs ys H1 H IH]; intros x y Hxy; [exact Hxy|]. cbn [fold_left]. apply IH. nra.
Qed.

Lemma Rema_affine w a b vs : vs <> [] -> Rema w (map (fun x => a * x + b) vs) = a * Rema w vs + b.
Proof.
  intros Hne. destruct vs as [|v vs]; [congruence|]. cbn [map Rema]. clear Hne. revert v.
  induction vs as [|y vs IH]; intros v; [reflexivity|]. cbn [map fold_left].
  rewrite <- IH. f_equal. ring.
Qed.

(** ** The periodic closes *)
Section Series.
  Context {M : machine} (p : Z) (Hp : (0 < p)%Z) (rel : flt -> flt -> Prop).
  Definition related (u u' : @ohlc_tick M) : Prop := timestamp_sec u = timestamp_sec u' /\ rel (close u) (close u').

  Lemma flats_related k : forall t t', related t t' -> Forall2 related (flats p k t) (flats p k t').
  Proof.
    induction k as [|k IH]; intros t t' H; [constructor|]. cbn [flats].
    assert (H1 : related (flat_tick t p) (flat_tick t' p)).
    { destruct H as (H1 & H2). split; cbn [flat_tick timestamp_sec close]; [congruence|exact H2]. }
    constructor; [exact H1|apply IH; exact H1].
  Qed.

  Lemma extend_related ser ser' u u' : Forall2 related ser ser' -> related u u' ->
    Forall2 related (extend p ser u) (extend p ser' u').
  Proof.
    intros Hs Hu. pose proof (Forall2_rev _ _ _ Hs) as Hr. unfold extend.
    assert (Hn : related (new_tick p u) (new_tick p u')).
    { destruct Hu as (H1 & H2). split; cbn [new_tick timestamp_sec close]; [unfold bucket_of; congruence|exact H2]. }
    destruct Hr as [|t t' older older' Ht Hold]; [constructor; [exact Hn|constructor]|].
    assert (B : bucket_of p u = bucket_of p u') by (unfold bucket_of; destruct Hu; congruence).
    destruct Ht as (T1 & T2). rewrite <- T1, <- B. destruct (_ <? _)%Z.
    - apply Forall2_app; [exact Hs|]. apply Forall2_app; [|constructor; [exact Hn|constructor]].
      assert (G : gap p t u = gap p t' u') by (unfold gap; congruence). rewrite <- G. apply flats_related. split; assumption.
    - apply Forall2_app; [apply Forall2_rev; exact Hold|]. constructor; [|constructor].
      split; cbn [merge_tick timestamp_sec close]; [exact T1|apply Hu].
  Qed.

  Lemma ordered_related us us' : Forall2 related us us' -> ordered timestamp_sec us -> ordered timestamp_sec us'.
  Proof.
    intros H O i j x y Hi Hj L.
    assert (N : forall l l', Forall2 related l l' -> forall k x, nth_error l' k = Some x -> exists x0, nth_error l k = Some x0 /\ timestamp_sec x0 = timestamp_sec x).
    { clear. induction 1 as [|a b l l' Hab H IH]; intros [|k] x E; try discriminate.
      - injection E as <-. exists a. split; [reflexivity|apply Hab].
      - apply IH. exact E. }
    destruct (N _ _ H i x Hi) as (x0 & E1 & <-). destruct (N _ _ H j y Hj) as (y0 & E2 & <-). exact (O i j x0 y0 E1 E2 L).
  Qed.

  Lemma series_related us us' : Forall2 related us us' -> ordered timestamp_sec us ->
    Forall2 related (series p us) (series p us').
  Proof.
    intros H Ho. pose proof (ordered_related _ _ H Ho) as Ho'. revert us' H Ho'.
    induction us as [|u us IH] using rev_ind; intros us' H Ho'; [inversion H; subst; constructor|].
    apply Forall2_app_inv_l in H as (l1 & l2 & H1 & H2 & ->). inversion H2 as [|? u' ? l3 Hu H3 E1 E2]; subst. inversion H3; subst.
    rewrite (series_extend p Hp us u Ho), (series_extend p Hp l1 u' Ho').
    apply ordered_snoc in Ho as [Ho _]. apply ordered_snoc in Ho' as [Ho' _]. apply extend_related; auto.
  Qed.

  Lemma series_nonempty (us : list (@ohlc_tick M)) : us <> [] -> ordered timestamp_sec us -> series p us <> [].
  Proof.
    intros Hne Ho. destruct (list_snoc us) as [->|(us0 & u0 & ->)]; [congruence|].
    destruct (series_last p Hp us0 u0 Ho) as (older & -> & _). destruct older; discriminate.
  Qed.
End Series.

Lemma lastn_nonempty {A} (n : nat) (l : list A) : (0 < n)%nat -> l <> [] -> lastn n l <> [].
Proof.
  intros Hn Hl E. apply (f_equal (@List.length A)) in E. rewrite lastn_length in E. destruct l; [congruence|]. cbn in E. lia.
Qed.

Section Exact.
  Context (sh : R -> string) (as_ : bool).
  Notation E := (exact sh as_).

  Lemma sma_is n p us x : (0 < n)%Z -> (0 < p)%Z -> ordered timestamp_sec us -> sma_reports sh as_ n p us x ->
    x = mean (map close (lastn (Z.to_nat n) (@series E p us))).
  Proof.
    intros Hn Hp Ho (s0 & s & E0 & E1 & ->). destruct (IndicatorProps.C44_sma sh as_ n p us Hn Hp Ho) as (s0' & s' & F0 & F1 & <-).
    rewrite E0 in F0. injection F0 as <-. rewrite E1 in F1. injection F1 as <-. reflexivity.
  Qed.

  Lemma ema_exact w (vs : list R) : @ema_of E w vs = Rema w vs.
  Proof. destruct vs; [reflexivity|]. reflexivity. Qed.

  Lemma ema_is sm len p us x : (0 < p)%Z -> ordered timestamp_sec us -> ema_reports sh as_ sm len p us x ->
    x = Rema (sm / (1 + IZR len)) (map close (@series E p us)).
  Proof.
    intros Hp Ho (s0 & s & E0 & E1 & ->). destruct (@IndicatorProps.C45_ema E sm len p us Hp Ho) as (s0' & s' & F0 & F1 & F2 & _).
    rewrite E0 in F0. injection F0 as <-. rewrite E1 in F1. injection F1 as <-. etransitivity; [exact F2|apply ema_exact].
  Qed.

  Lemma macd_series_exact wf ws (vs : list R) : @macd_series E wf ws vs = Rmacd wf ws vs.
  Proof. unfold macd_series, Rmacd. apply map_ext. intros i. rewrite !ema_exact. reflexivity. Qed.

  Lemma macd_is nf ns ng p us fast slow macd signal divergence : (0 < p)%Z -> ordered timestamp_sec us ->
    macd_reports sh as_ nf ns ng p us fast slow macd signal divergence ->
    let w n := 2 / (1 + IZR n) in
    let closes := map close (@series E p us) in
    fast = Rema (w nf) closes /\ slow = Rema (w ns) closes /\ macd = fast - slow /\
    signal = Rema (w ng) (Rmacd (w nf) (w ns) closes) /\ divergence = macd - signal.
  Proof.
    intros Hp Ho (s0 & s & E0 & E1 & -> & -> & -> & -> & ->) w closes.
    destruct (@IndicatorProps.C46_macd E nf ns ng p us Hp Ho) as (s0' & s' & F0 & F1 & A & B & C & D & G & _).
    rewrite E0 in F0. injection F0 as <-. rewrite E1 in F1. injection F1 as <-.
    rewrite A, B, C, D, G. rewrite !ema_exact, macd_series_exact. repeat split; reflexivity.
  Qed.

  Lemma sma_returns n p us : (0 < n)%Z -> (0 < p)%Z -> ordered timestamp_sec us -> exists x, sma_reports sh as_ n p us x.
  Proof.
    intros Hn Hp Ho. destruct (IndicatorProps.C44_sma sh as_ n p us Hn Hp Ho) as (s0 & s & F0 & F1 & _).
    exists (@sma_Get E s), s0, s. auto.
  Qed.
  Lemma ema_returns sm len p us : (0 < p)%Z -> ordered timestamp_sec us -> exists x, ema_reports sh as_ sm len p us x.
  Proof.
    intros Hp Ho. destruct (@IndicatorProps.C45_ema E sm len p us Hp Ho) as (s0 & s & F0 & F1 & _).
    exists (@ema_Get E s), s0, s. auto.
  Qed.
  Lemma macd_returns nf ns ng p us : (0 < p)%Z -> ordered timestamp_sec us ->
    exists fast slow macd signal divergence, macd_reports sh as_ nf ns ng p us fast slow macd signal divergence.
  Proof.
    intros Hp Ho. destruct (@IndicatorProps.C46_macd E nf ns ng p us Hp Ho) as (s0 & s & F0 & F1 & _).
    do 5 eexists. exists s0, s. repeat split; eassumption || reflexivity.
  Qed.

  Lemma closes_series lo hi p us : (0 < p)%Z -> ordered timestamp_sec us -> closes_between sh as_ lo hi us ->
    Forall (between lo hi) (map close (@series E p us)).
  Proof.
    intros Hp Ho Hc. apply Forall_map. apply (@series_closes E p Hp (between lo hi) us Ho). apply Forall_forall. exact Hc.
  Qed.
  Lemma closes_nonempty p (us : list (@ohlc_tick E)) : (0 < p)%Z -> ordered timestamp_sec us -> us <> [] -> map close (series p us) <> [].
  Proof. intros Hp Ho Hne H. apply map_eq_nil in H. exact (series_nonempty p Hp us Hne Ho H). Qed.

  (** *** Range *)
  Theorem C124_sma lo hi n p us x : (0 < n)%Z -> (0 < p)%Z -> ordered timestamp_sec us -> us <> [] ->
    closes_between sh as_ lo hi us -> sma_reports sh as_ n p us x -> between lo hi x.
  Proof.
    intros Hn Hp Ho Hne Hc Hx. rewrite (sma_is n p us x Hn Hp Ho Hx). apply mean_between.
    - intros H. apply map_eq_nil in H. revert H. apply lastn_nonempty; [lia|]. apply series_nonempty; assumption.
    - apply Forall_map. apply Forall_lastn.
      apply (@series_closes E p Hp (between lo hi) us Ho). apply Forall_forall. exact Hc.
  Qed.

  Theorem C124_ema lo hi smoothing ema_length p us x :
    (0 <= ema_length)%Z -> 0 <= smoothing <= 1 + IZR ema_length ->
    (0 < p)%Z -> ordered timestamp_sec us -> us <> [] ->
    closes_between sh as_ lo hi us -> ema_reports sh as_ smoothing ema_length p us x -> between lo hi x.
  Proof.
    intros Hl Hs Hp Ho Hne Hc Hx. rewrite (ema_is _ _ p us x Hp Ho Hx). apply Rema_between.
    - apply IZR_le in Hl. split.
      + apply Rmult_le_pos; [lra|]. apply Rlt_le, Rinv_0_lt_compat. lra.
      + apply Rmult_le_reg_r with (1 + IZR ema_length); [lra|]. unfold Rdiv. rewrite Rmult_assoc, Rinv_l by lra. lra.
    - apply closes_nonempty; assumption.
    - apply closes_series; assumption.
  Qed.

  Lemma two_weight n : (1 <= n)%Z -> 0 <= 2 / (1 + IZR n) <= 1.
  Proof.
    intros Hn. apply IZR_le in Hn. split.
    - apply Rmult_le_pos; [lra|]. apply Rlt_le, Rinv_0_lt_compat. lra.
    - apply Rmult_le_reg_r with (1 + IZR n); [lra|]. unfold Rdiv. rewrite Rmult_assoc, Rinv_l by lra. lra.
  Qed.

  Lemma Rmacd_between wf ws lo hi vs : 0 <= wf <= 1 -> 0 <= ws <= 1 -> Forall (between lo hi) vs ->
    Forall (between (- (hi - lo)) (hi - lo)) (Rmacd wf ws vs).
  Proof.
    intros Hf Hs HF. unfold Rmacd. apply Forall_map. apply Forall_forall. intros i Hi. apply in_seq in Hi.
    assert (Hne : firstn i vs <> []) by (destruct vs; [cbn in Hi; lia|]; destruct i; [lia|discriminate]).
    assert (HF' : Forall (between lo hi) (firstn i vs)).
    { rewrite Forall_forall in *. intros x Hx. apply HF. rewrite <- (firstn_skipn i vs). apply in_or_app. left. exact Hx. }
    pose proof (Rema_between wf lo hi _ Hf Hne HF') as A. pose proof (Rema_between ws lo hi _ Hs Hne HF') as B.
    unfold between in *. lra.
  Qed.

  Theorem C124_macd lo hi nf ns ng p us fast slow macd signal divergence :
    (1 <= nf)%Z -> (1 <= ns)%Z -> (1 <= ng)%Z -> (0 < p)%Z -> ordered timestamp_sec us -> us <> [] ->
    closes_between sh as_ lo hi us -> macd_reports sh as_ nf ns ng p us fast slow macd signal divergence ->
    between lo hi fast /\ between lo hi slow /\ Rabs macd <= hi - lo /\ Rabs signal <= hi - lo /\
    Rabs divergence <= 2 * (hi - lo).
  Proof.
    intros Hf Hs Hg Hp Ho Hne Hc Hx.
    destruct (macd_is nf ns ng p us _ _ _ _ _ Hp Ho Hx) as (E1 & E2 & E3 & E4 & E5).
    pose proof (closes_series lo hi p us Hp Ho Hc) as HF. pose proof (closes_nonempty p us Hp Ho Hne) as Hne2.
    assert (A : between lo hi fast) by (rewrite E1; apply Rema_between; auto using two_weight).
    assert (B : between lo hi slow) by (rewrite E2; apply Rema_between; auto using two_weight).
    assert (C : between (- (hi - lo)) (hi - lo) signal).
    { rewrite E4. apply Rema_between; [auto using two_weight| |apply Rmacd_between; auto using two_weight].
      intros H. unfold Rmacd in H. apply map_eq_nil in H. destruct (map close (series p us)); [congruence|discriminate]. }
    unfold between in *. split; [exact A|]. split; [exact B|]. subst divergence macd.
    split; [apply Rabs_le; lra|]. split; [apply Rabs_le; lra|]. apply Rabs_le. lra.
  Qed.

  (** *** Monotonicity: higher closes never lower an average. *)
  Lemma related_closes rel p us us' : (0 < p)%Z -> ordered timestamp_sec us -> closes_related sh as_ rel us us' ->
    Forall2 rel (map close (@series E p us)) (map close (@series E p us')).
  Proof.
    intros Hp Ho Hr. pose proof (@series_related E p Hp rel us us' Hr Ho) as H.
    induction H as [|t t' l l' Ht H IH]; cbn [map]; constructor; [apply Ht|exact IH].
  Qed.

  Lemma map_lastn {A B} (f : A -> B) n l : map f (lastn n l) = lastn n (map f l).
  Proof. unfold lastn. rewrite map_length. symmetry. apply skipn_map. Qed.

  Theorem C124_sma_monotone n p us us' x x' : (0 < n)%Z -> (0 < p)%Z -> ordered timestamp_sec us ->
    closes_related sh as_ Rle us us' -> sma_reports sh as_ n p us x -> sma_reports sh as_ n p us' x' -> x <= x'.
  Proof.
    intros Hn Hp Ho Hr Hx Hx'. pose proof (@ordered_related E Rle us us' Hr Ho) as Ho'.
    rewrite (sma_is n p us x Hn Hp Ho Hx), (sma_is n p us' x' Hn Hp Ho' Hx'). apply mean_le.
    rewrite !map_lastn. apply Forall2_lastn. apply related_closes; assumption.
  Qed.

  Lemma weight_range sm len : (0 <= len)%Z -> 0 <= sm <= 1 + IZR len -> 0 <= sm / (1 + IZR len) <= 1.
  Proof.
    intros Hl Hs. apply IZR_le in Hl. split.
    - apply Rmult_le_pos; [lra|]. apply Rlt_le, Rinv_0_lt_compat. lra.
    - apply Rmult_le_reg_r with (1 + IZR len); [lra|]. unfold Rdiv. rewrite Rmult_assoc, Rinv_l by lra. lra.
  Qed.

  Theorem C124_ema_monotone smoothing ema_length p us us' x x' :
    (0 <= ema_length)%Z -> 0 <= smoothing <= 1 + IZR ema_length -> (0 < p)%Z -> ordered timestamp_sec us ->
    closes_related sh as_ Rle us us' ->
    ema_reports sh as_ smoothing ema_length p us x -> ema_reports sh as_ smoothing ema_length p us' x' -> x <= x'.
  Proof.
    intros Hl Hs Hp Ho Hr Hx Hx'. pose proof (@ordered_related E Rle us us' Hr Ho) as Ho'.
    rewrite (ema_is _ _ p us x Hp Ho Hx), (ema_is _ _ p us' x' Hp Ho' Hx'). apply Rema_le; [apply weight_range; assumption|].
    apply related_closes; assumption.
  Qed.

  (** *** Units: closes a x + b instead of x. *)
  Lemma Forall2_affine a b (l l' : list R) : Forall2 (fun x y => y = a * x + b) l l' -> l' = map (fun x => a * x + b) l.
  Proof. induction 1; cbn [map]; congruence. Qed.

  Lemma rescaled_closes a b p us us' : (0 < p)%Z -> ordered timestamp_sec us -> rescaled sh as_ a b us us' ->
    map close (@series E p us') = map (fun x => a * x + b) (map close (@series E p us)).
  Proof. intros Hp Ho Hr. apply Forall2_affine. apply (related_closes _ p us us' Hp Ho Hr). Qed.

  Theorem C124_sma_unit a b n p us us' x x' : (0 < n)%Z -> (0 < p)%Z -> ordered timestamp_sec us -> us <> [] ->
    rescaled sh as_ a b us us' -> sma_reports sh as_ n p us x -> sma_reports sh as_ n p us' x' -> x' = a * x + b.
  Proof.
    intros Hn Hp Ho Hne Hr Hx Hx'. pose proof (@ordered_related E _ us us' Hr Ho) as Ho'.
    rewrite (sma_is n p us x Hn Hp Ho Hx), (sma_is n p us' x' Hn Hp Ho' Hx').
    rewrite !map_lastn, (rescaled_closes a b p us us' Hp Ho Hr), <- map_lastn. apply mean_affine.
    apply lastn_nonempty; [lia|]. apply closes_nonempty; assumption.
  Qed.

  Theorem C124_ema_unit a b smoothing ema_length p us us' x x' : (0 < p)%Z -> ordered timestamp_sec us -> us <> [] ->
    rescaled sh as_ a b us us' ->
    ema_reports sh as_ smoothing ema_length p us x -> ema_reports sh as_ smoothing ema_length p us' x' -> x' = a * x + b.
  Proof.
    intros Hp Ho Hne Hr Hx Hx'. pose proof (@ordered_related E _ us us' Hr Ho) as Ho'.
    rewrite (ema_is _ _ p us x Hp Ho Hx), (ema_is _ _ p us' x' Hp Ho' Hx').
    rewrite (rescaled_closes a b p us us' Hp Ho Hr). apply Rema_affine. apply closes_nonempty; assumption.
  Qed.

  Lemma Rmacd_affine wf ws a b vs : Rmacd wf ws (map (fun x => a * x + b) vs) = map (fun x => a * x + 0) (Rmacd wf ws vs).
  Proof.
    unfold Rmacd. rewrite map_length, map_map. apply map_ext_in. intros i Hi. apply in_seq in Hi.
    assert (Hne : firstn i vs <> []) by (destruct vs; [cbn in Hi; lia|]; destruct i; [lia|discriminate]).
    rewrite firstn_map, !Rema_affine by exact Hne. ring.
  Qed.

  Theorem C124_macd_unit a b nf ns ng p us us' fast slow macd signal divergence fast' slow' macd' signal' divergence' :
    (0 < p)%Z -> ordered timestamp_sec us -> us <> [] -> rescaled sh as_ a b us us' ->
    macd_reports sh as_ nf ns ng p us fast slow macd signal divergence ->
    macd_reports sh as_ nf ns ng p us' fast' slow' macd' signal' divergence' ->
    fast' = a * fast + b /\ slow' = a * slow + b /\ macd' = a * macd /\ signal' = a * signal /\
    divergence' = a * divergence.
  Proof.
    intros Hp Ho Hne Hr Hx Hx'. pose proof (@ordered_related E _ us us' Hr Ho) as Ho'.
    destruct (macd_is nf ns ng p us _ _ _ _ _ Hp Ho Hx) as (E1 & E2 & E3 & E4 & E5).
    destruct (macd_is nf ns ng p us' _ _ _ _ _ Hp Ho' Hx') as (F1 & F2 & F3 & F4 & F5).
    pose proof (closes_nonempty p us Hp Ho Hne) as Hc.
    rewrite (rescaled_closes a b p us us' Hp Ho Hr) in F1, F2, F4.
    rewrite Rema_affine in F1, F2 by exact Hc. rewrite Rmacd_affine, Rema_affine in F4.
    2: { intros H. unfold Rmacd in H. apply map_eq_nil in H. destruct (map close (series p us)); [congruence|discriminate]. }
    assert (G1 : fast' = a * fast + b) by (rewrite E1; exact F1). assert (G2 : slow' = a * slow + b) by (rewrite E2; exact F2).
    assert (G4 : signal' = a * signal) by (rewrite E4, F4; ring).
    split; [exact G1|]. split; [exact G2|]. rewrite F5, E5, F3, E3, G1, G2, G4. repeat split; ring.
  Qed.

  (** *** The sliding mean and standard deviation. *)
  Lemma last_or_all_map {A B} (f : A -> B) n l : map f (last_or_all n l) = last_or_all n (map f l).
  Proof. unfold last_or_all. destruct (n =? 0)%Z; [reflexivity|apply map_lastn]. Qed.

  Lemma removelast_map {A B} (f : A -> B) l : map f (removelast l) = removelast (map f l).
  Proof. induction l as [|x l IH]; [reflexivity|]. destruct l; [reflexivity|]. cbn [removelast map] in *. rewrite IH. reflexivity. Qed.

  Lemma op_values_map f ops : op_values (map (op_map f) ops) = map f (op_values ops).
  Proof.
    assert (G : forall ops vs,
      fold_left (fun vs op => match op with Add v => vs ++ [v] | Replace v => removelast vs ++ [v] end) (map (op_map f) ops) (map f vs)
      = map f (fold_left (fun vs op => match op with Add v => vs ++ [v] | Replace v => removelast vs ++ [v] end) ops vs)).
    { clear. induction ops as [|op ops IH]; intros vs; [reflexivity|]. cbn [map fold_left].
      destruct op; cbn [op_map]; rewrite <- IH; [rewrite map_app; reflexivity|rewrite map_app, removelast_map; reflexivity]. }
    exact (G ops []).
  Qed.

  Lemma deviation_is n ops m sd : (0 <= n)%Z -> legal ops -> deviation_reports sh as_ n ops m sd ->
    m = mean (last_or_all n (op_values ops)) /\ sd = sqrt (variance (last_or_all n (op_values ops))).
  Proof.
    intros Hn HL (s & E1 & -> & ->). destruct (IndicatorProps.C50_mean_variance sh as_ n ops Hn HL) as (s' & F1 & <- & _ & _ & <-).
    rewrite E1 in F1. injection F1 as <-. split; reflexivity.
  Qed.

  Lemma op_values_nonempty (ops : list (window_op R)) : ops <> [] -> op_values ops <> [].
  Proof.
    destruct (list_snoc ops) as [->|(l & op & ->)]; [congruence|]. intros _. unfold op_values. rewrite fold_left_app.
    cbn [fold_left]. destruct op; match goal with |- ?l ++ _ <> [] => destruct l; discriminate end.
  Qed.
  Lemma last_or_all_nonempty (n : Z) (l : list R) : (0 <= n)%Z -> l <> [] -> last_or_all n l <> [].
  Proof. intros Hn Hl. unfold last_or_all. destruct (Z.eqb_spec n 0); [exact Hl|]. apply lastn_nonempty; [lia|exact Hl]. Qed.

  Theorem C124_deviation lo hi n ops m sd : (0 <= n)%Z -> legal ops -> ops <> [] ->
    Forall (between lo hi) (op_values ops) -> deviation_reports sh as_ n ops m sd ->
    between lo hi m /\ 0 <= sd <= (hi - lo) / 2.
  Proof.
    intros Hn HL Hne HF Hr. destruct (deviation_is n ops m sd Hn HL Hr) as (-> & ->).
    pose proof (last_or_all_nonempty n _ Hn (op_values_nonempty ops Hne)) as H1.
    assert (H2 : Forall (between lo hi) (last_or_all n (op_values ops))).
    { unfold last_or_all. destruct (n =? 0)%Z; [exact HF|apply Forall_lastn; exact HF]. }
    pose proof (mean_between lo hi _ H1 H2) as M. split; [exact M|]. split; [apply sqrt_pos|].
    rewrite <- (sqrt_pow2 ((hi - lo) / 2)) by (unfold between in M; lra). apply sqrt_le_1_alt. apply variance_range; assumption.
  Qed.

  Theorem C124_deviation_unit a b n ops m sd m' sd' : (0 <= n)%Z -> legal ops -> ops <> [] ->
    deviation_reports sh as_ n ops m sd -> deviation_reports sh as_ n (map (op_map (fun x => a * x + b)) ops) m' sd' ->
    m' = a * m + b /\ sd' = Rabs a * sd.
  Proof.
    intros Hn HL Hne Hr Hr'. destruct (deviation_is n ops m sd Hn HL Hr) as (-> & ->).
    assert (HL' : legal (map (op_map (fun x => a * x + b)) ops)) by (destruct ops as [|[]]; exact HL).
    destruct (deviation_is n _ m' sd' Hn HL' Hr') as (-> & ->).
    rewrite op_values_map, <- last_or_all_map. split.
    - apply mean_affine. apply last_or_all_nonempty; [exact Hn|apply op_values_nonempty; exact Hne].
    - rewrite variance_affine. rewrite sqrt_mult_alt by apply pow2_ge_0. f_equal. rewrite <- (sqrt_Rsqr_abs a). f_equal. unfold Rsqr. ring.
  Qed.

  Lemma ln_le x y : 0 < x -> x <= y -> ln x <= ln y.
  Proof. intros H [L|E0]; [left; apply ln_increasing; assumption|right; congruence]. Qed.

  (** *** Volatility: if no period changes the value by more than a factor exp r, the volatility
      is at most r. *)
  Theorem C124_volatility r N p xs s0 s : (0 <= N)%Z -> (0 < p)%Z -> xs <> [] -> ordered timestamp_sec (map bu_tick xs) ->
    (forall v, In v (@initial_value E xs :: period_values p xs) -> 0 < v) ->
    (forall v v', In (v, v') (@value_steps E p xs) -> exp (- r) <= v' / v <= exp r) ->
    @NewVolatility E N p = Done s0 ->
    foldM (fun s x => @vol_Update E p s (bu_tick x) (bu_base x) (bu_quote x)) s0 xs = Done s ->
    0 <= @vol_Get E s <= r.
  Proof.
    intros HN Hp Hne Ho Hpos Hsteps E0 E1.
    destruct (IndicatorProps.C51_volatility sh as_ N p xs HN Hp Ho Hpos) as (s0' & s' & F0 & F1 & F2).
    rewrite E0 in F0. injection F0 as <-. rewrite E1 in F1. injection F1 as <-. rewrite F2.
    set (rs := map _ _).
    assert (HF : Forall (between (- r) r) rs).
    { apply Forall_forall. intros x Hx. unfold rs in Hx. apply in_map_iff in Hx as ((v & v') & <- & Hv). cbn [fst snd].
      destruct (Hsteps v v' Hv) as (A & B). pose proof (exp_pos (- r)). split.
      - rewrite <- (ln_exp (- r)). apply ln_le; assumption.
      - rewrite <- (ln_exp r). apply ln_le; [lra|exact B]. }
    assert (Hrs : rs <> []).
    { unfold rs. intros H. apply map_eq_nil in H. unfold value_steps in H. destruct (period_values p xs) as [|v vs] eqn:Ev; [|discriminate].
      unfold period_values in Ev. apply map_eq_nil in Ev. destruct xs; [congruence|discriminate]. }
    assert (H2 : Forall (between (- r) r) (last_or_all N rs)).
    { unfold last_or_all. destruct (N =? 0)%Z; [exact HF|apply Forall_lastn; exact HF]. }
    pose proof (last_or_all_nonempty N rs HN Hrs) as H1.
    pose proof (mean_between _ _ _ H1 H2) as M.
    split; [apply sqrt_pos|]. rewrite <- (sqrt_pow2 r) by (unfold between in M; lra). apply sqrt_le_1_alt.
    replace r with ((r - - r) / 2) at 1 by lra. apply variance_range; assumption.
  Qed.

  (** *** Stochastic oscillator *)
  Lemma min_of_le l (x : R) : In x l -> min_of l <= x.
  Proof.
    destruct l as [|y l]; [intros []|]. cbn [min_of].
    assert (G : forall l y, fold_left Rmin l y <= y /\ forall x, In x l -> fold_left Rmin l y <= x).
    { clear. induction l as [|z l IH]; intros y; cbn [fold_left]; [split; [apply Rle_refl|intros x []]|].
      destruct (IH (Rmin y z)) as (A & B). split; [eapply Rle_trans; [exact A|apply Rmin_l]|].
      intros x [<-|Hx]; [eapply Rle_trans; [exact A|apply Rmin_r]|apply B; exact Hx]. }
    intros [<-|Hx]; [exact (proj1 (G l y))|exact (proj2 (G l y) x Hx)].
  Qed.
  Lemma max_of_ge l (x : R) : In x l -> x <= max_of l.
  Proof.
    destruct l as [|y l]; [intros []|]. cbn [max_of].
    assert (G : forall l y, y <= fold_left Rmax l y /\ forall x, In x l -> x <= fold_left Rmax l y).
    { clear. induction l as [|z l IH]; intros y; cbn [fold_left]; [split; [apply Rle_refl|intros x []]|].
      destruct (IH (Rmax y z)) as (A & B). split; [eapply Rle_trans; [apply Rmax_l|exact A]|].
      intros x [<-|Hx]; [eapply Rle_trans; [apply Rmax_r|exact A]|apply B; exact Hx]. }
    intros [<-|Hx]; [exact (proj1 (G l y))|exact (proj2 (G l y) x Hx)].
  Qed.

  Lemma percent_range n (ser : list (@ohlc_tick E)) : (0 < n)%Z -> (forall t, In t ser -> @valid_tick E t) ->
    0 <= percent_k sh as_ n ser <= 100.
  Proof.
    intros Hn Hv. unfold percent_k. destruct (rev ser) as [|t older] eqn:Er; [lra|].
    assert (Es : ser = rev older ++ [t]) by (rewrite <- (rev_involutive ser), Er; reflexivity).
    assert (Hin : In t (lastn (Z.to_nat n) ser)).
    { rewrite Es. replace (Z.to_nat n) with (S (Z.to_nat n - 1)) by lia. rewrite lastn_snoc_S. apply in_or_app. right. left. reflexivity. }
    assert (Ht : In t ser) by (rewrite Es; apply in_or_app; right; left; reflexivity).
    destruct (Hv t Ht) as (_ & _ & A & _ & B & _). cbn in A, B.
    assert (L : forall a b : R, Rle_bool a b = true -> a <= b) by (intros a b H; destruct (Rle_bool_spec a b); [assumption|discriminate]).
    apply L in A, B.
    apply StochProofs.k_range. split.
    - eapply Rle_trans; [apply min_of_le; apply in_map; exact Hin|exact A].
    - eapply Rle_trans; [exact B|]. apply max_of_ge. apply in_map. exact Hin.
  Qed.

  Lemma prefixes_mean {A} (f : list A -> R) (P : list A -> Prop) (l : list A) :
    (forall pre, P pre -> 0 <= f pre <= 100) -> (forall pre, In pre (prefixes l) -> P pre) ->
    0 <= mean (lastn 3 (map f (prefixes l))) <= 100.
  Proof.
    intros Hf HP. destruct (prefixes l) as [|q qs] eqn:Eq; [cbn; lra|]. rewrite <- Eq in *. apply mean_between.
    - apply lastn_nonempty; [lia|]. intros H. apply map_eq_nil in H. rewrite H in Eq. discriminate.
    - apply Forall_lastn. apply Forall_forall. intros x Hx. apply in_map_iff in Hx as (pre & <- & Hpre). apply Hf, HP, Hpre.
  Qed.

  Lemma prefix_in {A} (l pre : list A) : In pre (prefixes l) -> forall x, In x pre -> In x l.
  Proof.
    intros H x Hx. unfold prefixes in H. apply in_map_iff in H as (i & <- & _).
    rewrite <- (firstn_skipn i l). apply in_or_app. left. exact Hx.
  Qed.

  Theorem C124_stochastic n p us s0 s : (0 < n)%Z -> (0 < p)%Z -> us <> [] -> ordered timestamp_sec us ->
    (forall u, In u us -> @valid_tick E u) ->
    @NewStoch E n p = Done s0 -> foldM (@stoch_Update E p) s0 us = Done s ->
    between 0 100 (@stoch_GetK E s) /\ between 0 100 (@stoch_GetFastD E s) /\ between 0 100 (@stoch_GetSlowD E s).
  Proof.
    intros Hn Hp Hne Ho Hv E0 E1.
    destruct (IndicatorProps.C48_stochastic sh as_ n p us Hn Hp Hne Ho Hv) as (s0' & s' & F0 & F1 & _ & _ & _ & K & _ & D & S).
    rewrite E0 in F0. injection F0 as <-. rewrite E1 in F1. injection F1 as <-.
    split; [exact K|]. rewrite D, S.
    pose proof (@SeriesValid.series_valid E (OrderLaws.exact_order sh as_) p Hp us Ho Hv) as Hsv.
    assert (HD : forall pre, (forall t, In t pre -> @valid_tick E t) -> 0 <= fast_d sh as_ n pre <= 100).
    { intros pre Hpre. unfold fast_d. apply (prefixes_mean _ (fun q => forall t, In t q -> @valid_tick E t)).
      - intros q Hq. apply percent_range; assumption.
      - intros q Hq t Ht. apply Hpre. exact (prefix_in pre q Hq t Ht). }
    split; [apply HD; exact Hsv|]. unfold slow_d. apply (prefixes_mean _ (fun q => forall t, In t q -> @valid_tick E t)).
    - exact HD.
    - intros q Hq t Ht. apply Hsv. exact (prefix_in _ q Hq t Ht).
  Qed.

  (** *** Evaluations: the averages and the score lie between the extremes of the periods. *)
  Lemma same_mean l : l <> [] -> EvalProps.mean l = mean l.
  Proof. intros H. rewrite mean_eq by exact H. reflexivity. Qed.

  Lemma product_between lo hi l : 0 < lo -> Forall (between lo hi) l -> between (lo ^ List.length l) (hi ^ List.length l) (EvalProps.product l).
  Proof.
    intros Hlo HF. induction HF as [|x l Hx HF IH]; [split; cbn; lra|].
    unfold between in *. cbn [List.length pow EvalProps.product fold_right]. fold (EvalProps.product l).
    assert (0 < lo ^ List.length l) by (apply pow_lt; exact Hlo). split; apply Rmult_le_compat; lra.
  Qed.

  Lemma root_le x y n : n <> 0%nat -> 0 < x -> 0 < y -> x ^ n <= y ^ n -> x <= y.
  Proof.
    intros Hn Hx Hy H. destruct (Rle_or_lt x y) as [L|L]; [exact L|]. exfalso.
    assert (y ^ n < x ^ n); [|lra]. clear H. destruct n as [|n]; [congruence|]. clear Hn. induction n as [|n IH]; [cbn; lra|].
    change (y * y ^ S n < x * x ^ S n). assert (0 < y ^ S n) by (apply pow_lt; exact Hy).
    apply Rmult_gt_0_lt_compat; lra.
  Qed.

  Theorem C124_evaluation cfg ec history side te lg hl fuel l r l' lo hi :
    @EvaluateTrader E cfg ec history side te lg hl fuel l = Done (r, l') -> er_period r <> [] ->
    let ps := er_period r in
    ((forall p, In p ps -> between lo hi (@p_final_gain E p)) -> between lo hi (er_avg_gain r)) /\
    ((forall p, In p ps -> between lo hi (@p_base_final_gain E p)) -> between lo hi (er_avg_base_gain r)) /\
    ((forall p, In p ps -> between lo hi (IZR (@r_total_executed_orders E (p_result p)))) ->
       between lo hi (er_avg_total_executed_orders r)) /\
    ((forall p, In p ps -> between lo hi (@r_total_fee E (p_result p))) -> between lo hi (er_avg_total_fee r)) /\
    (0 < lo -> (forall p, In p ps -> between lo hi (@p_final_gain E p / @p_base_final_gain E p)) ->
       between lo hi (er_score r)).
  Proof.
    intros H Hne ps.
    destruct (EvalProps.C28_averages sh as_ cfg ec history side te lg hl fuel l r l' H Hne) as (A & B & C & D & S).
    fold ps in A, B, C, D, S. rewrite A, B, C, D.
    assert (G : forall f : @period E -> R, (forall p, In p ps -> between lo hi (f p)) -> between lo hi (EvalProps.mean (map f ps))).
    { intros f Hf. rewrite same_mean by (intros X; apply map_eq_nil in X; exact (Hne X)). apply mean_between.
      - intros X. apply map_eq_nil in X. exact (Hne X).
      - apply Forall_map. apply Forall_forall. exact Hf. }
    split; [apply (G (@p_final_gain E))|]. split; [apply (G (@p_base_final_gain E))|].
    split; [apply (G (fun p => IZR (@r_total_executed_orders E (p_result p))))|].
    split; [apply (G (fun p => @r_total_fee E (p_result p)))|].
    intros Hlo Hs.
    destruct S as (S1 & S2). { intros p Hp. destruct (Hs p Hp) as (X & _). eapply Rlt_le_trans; [exact Hlo|exact X]. }
    assert (HF : Forall (between lo hi) (map (fun p => @p_final_gain E p / @p_base_final_gain E p) ps)).
    { apply Forall_map. apply Forall_forall. exact Hs. }
    pose proof (product_between lo hi _ Hlo HF) as P. rewrite map_length in P. rewrite <- S2 in P.
    assert (N : List.length ps <> 0%nat) by (unfold ps; intros X; apply length_zero_iff_nil in X; exact (Hne X)).
    assert (Hhi : lo <= hi). { unfold ps in Hs. destruct (er_period r) as [|p q]; [congruence|]. destruct (Hs p (or_introl eq_refl)). eapply Rle_trans; eassumption. }
    unfold between in P. change (@flt E) with R in *. split; apply (root_le _ _ (List.length ps) N); lra.
  Qed.
End Exact.

(** ** Single precision *)
Section Float.
  Context (lm : libm) (as_ : bool).
  Notation I := (ieee lm as_).

  (** The float averages lie in the range of the closes up to the drift of C92 and C93. *)
  Theorem C124_ema_float (smoothing : f32) (ema_length p k : Z) (us : list (@ohlc_tick I)) lo hi :
    let W := B2R smoothing / (1 + IZR ema_length) in
    is_finite smoothing = true -> (0 <= ema_length < 2 ^ 24)%Z -> / 2 ^ 19 <= W <= 1 ->
    (0 < p)%Z -> (-100 <= k <= 100)%Z -> ordered timestamp_sec us -> us <> [] ->
    Forall (fun t : @ohlc_tick I => DriftProps.within k (close t) /\ between lo hi (B2R (close t : f32))) us ->
    exists s0 s, @NewEma I p = Done s0 /\
      foldM (@ema_Update I (@ema_weight I smoothing ema_length) p) s0 us = Done s /\
      is_finite (@ema_Get I s : f32) = true /\
      let slack := / 2 ^ 20 * bpow radix2 k / W in
      between (lo - slack) (hi + slack) (B2R (@ema_Get I s : f32)).
  Proof.
    intros W Fs Hl HW Hp Hk Ho Hne HQ.
    assert (Q1 : Forall (fun t : @ohlc_tick I => DriftProps.within k (close t)) us) by (eapply Forall_impl; [|exact HQ]; intros t H; apply H).
    assert (Q2 : Forall (fun t : @ohlc_tick I => between lo hi (B2R (close t : f32))) us) by (eapply Forall_impl; [|exact HQ]; intros t H; apply H).
    destruct (DriftProps.C93_ema lm as_ smoothing ema_length p k us Fs Hl HW Hp Hk Ho Q1) as (s0 & s & E0 & E1 & F & V).
    exists s0, s. split; [exact E0|]. split; [exact E1|]. split; [exact F|]. cbv zeta.
    assert (R : between lo hi (Rema W (map (fun t : @ohlc_tick I => B2R (close t : f32)) (series p us)))).
    { apply Rema_between.
      - assert (0 < 2 ^ 19) by (apply pow_lt; lra). pose proof (Rinv_0_lt_compat _ H). lra.
      - intros X. apply map_eq_nil in X. exact (series_nonempty p Hp us Hne Ho X).
      - apply Forall_map. apply (@series_closes I p Hp (fun c => between lo hi (B2R (c : f32))) us Ho Q2). }
    unfold W in V, R. apply Rabs_le_inv in V. unfold between in *. fold W in V, R |- *. lra.
  Qed.

  Theorem C124_sma_float n p k (us : list (@ohlc_tick I)) lo hi :
    (0 < n <= 2 ^ 20)%Z -> (0 < p)%Z -> (-100 <= k <= 100)%Z -> ordered timestamp_sec us -> us <> [] ->
    Forall (fun t : @ohlc_tick I => DriftProps.within k (close t) /\ between lo hi (B2R (close t : f32))) us ->
    (Z.of_nat (List.length us + List.length (series p us)) <= 2 ^ 23)%Z ->
    exists s0 s, @NewSma I n p = Done s0 /\ foldM (@sma_Update I n p) s0 us = Done s /\
      is_finite (@sma_Get I s : f32) = true /\
      let slack := INR (List.length us + List.length (series p us)) * / 2 ^ 20 * bpow radix2 k in
      between (lo - slack) (hi + slack) (B2R (@sma_Get I s : f32)).
  Proof.
    intros Hn Hp Hk Ho Hne HQ Hc.
    assert (Q1 : Forall (fun t : @ohlc_tick I => DriftProps.within k (close t)) us) by (eapply Forall_impl; [|exact HQ]; intros t H; apply H).
    assert (Q2 : Forall (fun t : @ohlc_tick I => between lo hi (B2R (close t : f32))) us) by (eapply Forall_impl; [|exact HQ]; intros t H; apply H).
    destruct (DriftProps.C92_sma lm as_ n p k us Hn Hp Hk Ho Q1 Hc) as (s0 & s & E0 & E1 & F & V).
    exists s0, s. split; [exact E0|]. split; [exact E1|]. split; [exact F|]. cbv zeta.
    assert (R : between lo hi (mean (map (fun t : @ohlc_tick I => B2R (close t : f32)) (lastn (Z.to_nat n) (series p us))))).
    { apply mean_between.
      - intros X. apply map_eq_nil in X. revert X. apply lastn_nonempty; [lia|]. apply series_nonempty; assumption.
      - apply Forall_map. apply Forall_lastn. apply (@series_closes I p Hp (fun c => between lo hi (B2R (c : f32))) us Ho Q2). }
    apply Rabs_le_inv in V. unfold between in *. lra.
  Qed.

  (** Without the slack the claim is false: two closes of 3, average length 12. *)
  Theorem C124_ema_float_refuted :
    let three := IndicatorProps.zf 3 in
    bind (@NewEma I 60) (fun s0 =>
    bind (foldM (@ema_Update I (@ema_weight I (IndicatorProps.zf 2) 12) 60) s0
                [IndicatorProps.flat_tick_at lm as_ 0 three; IndicatorProps.flat_tick_at lm as_ 60 three]) (fun s =>
      Done (Bltb three (@ema_Get I s)))) = Done true.
  Proof. clear; destruct as_; vm_compute; reflexivity. Qed.
End Float.

(** ** An example: three minutes of closes 3, 5 and 4, and the same as 2 x + 1. *)
Section Example_.
  Context (sh : R -> string) (as_ : bool).
  Notation E := (exact sh as_).
  Let at_ (t : Z) (c : R) : @ohlc_tick E := @OhlcTick E t c c c c 1.
  Let us := [at_ 0 3; at_ 60 5; at_ 120 4].
  Let us' := [at_ 0 7; at_ 60 11; at_ 120 9].

  Lemma C124_ex :
    ordered timestamp_sec us /\ closes_between sh as_ 3 5 us /\ closes_related sh as_ Rle us us' /\
    rescaled sh as_ 2 1 us us' /\
    sma_reports sh as_ 2 60 us (9 / 2) /\ sma_reports sh as_ 2 60 us' 10 /\
    (exists x, ema_reports sh as_ 2 3 60 us x) /\
    (exists fast slow macd signal divergence, macd_reports sh as_ 12 26 9 60 us fast slow macd signal divergence).
  Proof.
    assert (O : ordered timestamp_sec us).
    { intros i j x y Hi Hj Hij.
      do 3 (destruct i as [|i]; [do 3 (destruct j as [|j]; [cbn in Hi, Hj; injection Hi as <-; injection Hj as <-; cbn; lia|]);
                                 destruct j; discriminate|]). destruct i; discriminate. }
    assert (Q : closes_related sh as_ (fun x y => y = 2 * x + 1) us us').
    { repeat constructor; cbn [close at_]; ring. }
    split; [exact O|]. split; [intros u [<-|[<-|[<-|[]]]]; unfold between; cbn [close at_]; lra|].
    split; [repeat constructor; cbn [close at_]; lra|]. split; [exact Q|].
    assert (S1 : forall a b c, @series E 60 [at_ 0 a; at_ 60 b; at_ 120 c] = [at_ 0 a; at_ 60 b; at_ 120 c]) by reflexivity.
    assert (S : forall a b c, ordered timestamp_sec [at_ 0 a; at_ 60 b; at_ 120 c] ->
                sma_reports sh as_ 2 60 [at_ 0 a; at_ 60 b; at_ 120 c] ((b + c) / 2)).
    { intros a b c Ho. destruct (sma_returns sh as_ 2 60 _ ltac:(lia) ltac:(lia) Ho) as (x & Hx).
      pose proof (sma_is sh as_ 2 60 _ x ltac:(lia) ltac:(lia) Ho Hx) as Ex. rewrite S1 in Ex.
      replace ((b + c) / 2) with x; [exact Hx|]. rewrite Ex. change (Z.to_nat 2) with 2%nat. cbn. change (@flt E) with R. lra. }
    split; [replace (9 / 2) with ((5 + 4) / 2) by lra; apply S; exact O|].
    split; [replace 10 with ((11 + 9) / 2) by lra; apply S; exact (@ordered_related E _ us us' Q O)|].
    split; [apply ema_returns; [lia|exact O]|apply macd_returns; [lia|exact O]].
  Qed.
End Example_.
Print Assumptions C124_evaluation.
Print Assumptions C124_ema_float.
