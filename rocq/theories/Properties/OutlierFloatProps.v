(** C112: the outliers the program finds are those of the exact rule, unless a price is within
    two parts per million of a threshold; quiet histories pass unchanged; cleaning twice. *)
From Coq Require Import Reals ZArith Bool List Lra Lia.
From Flocq Require Import Core BinarySingleNaN.
From Verif.Model Require Import Outcome Machine Types History MachineR MachineIEEE.
From Verif.Spec Require Import HistorySpec OutlierFloatSpec.
From Verif.Proofs Require Import Base FloatLemmas FloatErr DriftProofs OutlierProofs OutlierFloat.
From Verif.Properties Require Import HistoryProps.
Import ListNotations.
Local Open Scope R_scope.

(** ** Any machine *)
Section Again.
  Context {M : machine} (dev : flt).

  (** No record jumps with respect to the one before it. *)
  Fixpoint no_jump (l : list price_record) : Prop :=
    match l with
    | a :: ((b :: _) as l') => jumps_up dev a b = false /\ jumps_down dev a b = false /\ no_jump l'
    | _ => True
    end.

  Lemma mask_quiet l : forall p clean, Forall (fun r => bad_record r = false) l -> no_jump (p :: l) ->
    mask_of dev (p :: clean) l = map (fun _ => true) l.
  Proof.
    induction l as [|r l IH]; intros p clean G J; [reflexivity|].
    apply Forall_cons_iff in G as (Gr & G). destruct J as (J1 & J2 & J). cbn [mask_of map].
    rewrite Gr. unfold unsupported_jump at 1 2. rewrite J1, J2. cbn [orb andb negb]. f_equal. apply IH; auto.
  Qed.

  Lemma select_all {A} (l : list A) : select (map (fun _ => true) l) l = l.
  Proof. induction l as [|x l IH]; [reflexivity|]. cbn. rewrite IH. reflexivity. Qed.
  Lemma dropped_none {A} (l : list A) i : dropped i (map (fun _ => true) l) = [].
  Proof. revert i. induction l as [|x l IH]; intros i; [reflexivity|]. cbn. apply IH. Qed.

  (** Well-formed records, none of which jumps: nothing is removed, nothing reported. *)
  Theorem C112_nothing_removed l idx : Forall (fun r => bad_record r = false) l -> no_jump l ->
    RemoveOutliers l dev idx = (l, idx).
  Proof.
    intros G J. assert (MM : mask_of dev [] l = map (fun _ => true) l).
    { destruct l as [|p l]; [reflexivity|]. apply Forall_cons_iff in G as (Gp & G). cbn [mask_of map]. rewrite Gp. cbn [negb andb]. f_equal.
      apply mask_quiet; auto. }
    unfold RemoveOutliers. rewrite loop_mask, app_nil_r, rev_involutive, MM, select_all, dropped_none. f_equal.
    destruct idx; [rewrite app_nil_r|]; reflexivity.
  Qed.

  (** Cleaning a cleaned history again changes nothing if no kept record jumps with respect
      to the kept record before it. *)
  Theorem C112_again l idx idx' : no_jump (fst (RemoveOutliers l dev idx)) ->
    RemoveOutliers (fst (RemoveOutliers l dev idx)) dev idx' = (fst (RemoveOutliers l dev idx), idx').
  Proof.
    intros J. apply C112_nothing_removed; [|exact J]. apply Forall_forall. intros r Hr.
    destruct (outliers_mask dev l) as (mask & (HL & HM) & E). rewrite E in Hr. cbn [fst] in Hr.
    apply select_nth in Hr as (i & Hi & Hl). specialize (HM i r Hl). rewrite HM in Hi.
    injection Hi as Hi. apply andb_true_iff in Hi as (Hi & _). apply negb_true_iff. exact Hi.
  Qed.
End Again.

(** ** binary32 *)
Section Float.
  Context (lm : libm) (as_ : bool) (sh : R -> String.string) (as' : bool).
  Local Notation I := (ieee lm as_).
  Local Notation E := (exact sh as').
  Local Notation real := (real_record lm as_ sh as').

  Theorem C112_exact_rule (dev : f32) (l : list (@price_record I)) mask :
    is_finite dev = true -> 0 <= B2R dev <= 1024 -> Forall (sane_record lm as_) l ->
    @right_mask E (B2R dev) (map real l) mask -> clear_history sh as' (B2R dev) (map real l) mask ->
    fst (@RemoveOutliers I l dev (Some [])) = select mask l /\ snd (@RemoveOutliers I l dev (Some [])) = Some (dropped 0 mask).
  Proof.
    intros F D Sl HM HC. rewrite (outliers_real lm as_ sh as' dev F D l mask Sl HM HC). auto.
  Qed.

  (** No price moves by more than (1 + dev)(1 - 2^-18) between consecutive records. *)
  Fixpoint quiet (dev : R) (l : list (@price_record I)) : Prop :=
    match l with
    | a :: ((b :: _) as l') =>
      B2R (pr_price b : f32) <= B2R (pr_price a : f32) * (1 + dev) * (1 - / 2 ^ 18) /\
      B2R (pr_price a : f32) <= B2R (pr_price b : f32) * (1 + dev) * (1 - / 2 ^ 18) /\ quiet dev l'
    | _ => True
    end.

  Lemma factor_ge1 (dev : R) (a b : @price_record E) : 0 <= dev -> 1 + dev <= @jump_factor E dev a b.
  Proof.
    intros Hd. unfold jump_factor, fmax. cbn [exact fmul fadd fofZ fsqrt fltb fdiv].
    rewrite <- (Rmult_1_r (1 + dev)) at 1. apply Rmult_le_compat_l; [lra|].
    assert (K : forall x, 1 <= x -> 1 <= sqrt x) by (intros x Hx; rewrite <- sqrt_1; apply sqrt_le_1; lra).
    apply K. destruct (Rlt_bool_spec 1 (IZR (pr_timestamp_sec b - pr_timestamp_sec a) / 60)); lra.
  Qed.

  Theorem C112_quiet (dev : f32) (l : list (@price_record I)) idx :
    is_finite dev = true -> 0 <= B2R dev <= 1024 -> Forall (sane_record lm as_) l ->
    Forall (fun r => @bad_record I r = false) l -> quiet (B2R dev) l ->
    @RemoveOutliers I l dev idx = (l, idx).
  Proof.
    intros F D Sl G Q. apply C112_nothing_removed; [exact G|].
    induction l as [|a l IH]; [exact Logic.I|]. destruct l as [|b l]; [exact Logic.I|].
    apply Forall_cons_iff in Sl as (Sa & Sl). apply Forall_cons_iff in G as (Ga & G). destruct Q as (Q1 & Q2 & Q).
    specialize (IH Sl G Q). pose proof Sl as Sl'. apply Forall_cons_iff in Sl' as (Sb & _). apply Forall_cons_iff in G as (Gb & _).
    pose proof (good_priced lm as_ sh as' a Sa Ga) as Pa. pose proof (good_priced lm as_ sh as' b Sb Gb) as Pb.
    assert (A0 : 0 < B2R (pr_price a : f32)) by (destruct Pa as (_ & _ & B & _); pose proof (bpow_gt_0 radix2 (-40)); lra).
    assert (B0 : 0 < B2R (pr_price b : f32)) by (destruct Pb as (_ & _ & B & _); pose proof (bpow_gt_0 radix2 (-40)); lra).
    assert (Hd : (Z.abs (pr_timestamp_sec b - pr_timestamp_sec a) < 2 ^ 40)%Z) by (destruct Sa as (_ & _ & _ & Ta), Sb as (_ & _ & _ & Tb); lia).
    pose proof (factor_ge1 (B2R dev) (real a) (real b) ltac:(lra)) as HF.
    set (Fa := @jump_factor E (B2R dev) (real a) (real b)) in *.
    pose proof (upper_fl lm as_ sh as' dev F D a b Hd Pa) as HU. pose proof (lower_fl lm as_ sh as' dev F D a b Hd Pa) as HL.
    assert (EU : @upper_edge E (B2R dev) (real a) (real b) = B2R (pr_price a : f32) * Fa) by reflexivity.
    assert (EL : @lower_edge E (B2R dev) (real a) (real b) = B2R (pr_price a : f32) / Fa) by reflexivity.
    rewrite EU in HU. rewrite EL in HL.
    replace (2 ^ 18) with 262144 in Q1, Q2 by ring.
    assert (U1 : B2R (pr_price b : f32) <= B2R (pr_price a : f32) * Fa * (1 - / 262144)).
    { eapply Rle_trans; [exact Q1|]. apply Rmult_le_compat_r; [lra|]. apply Rmult_le_compat_l; lra. }
    assert (L1 : B2R (pr_price a : f32) / Fa <= B2R (pr_price b : f32) * (1 - / 262144)).
    { apply Rmult_le_reg_r with Fa; [lra|]. unfold Rdiv. rewrite Rmult_assoc, Rinv_l, Rmult_1_r by lra.
      eapply Rle_trans; [exact Q2|]. replace (B2R (pr_price b : f32) * (1 - / 262144) * Fa) with (B2R (pr_price b : f32) * Fa * (1 - / 262144)) by ring.
      apply Rmult_le_compat_r; [lra|]. apply Rmult_le_compat_l; lra. }
    assert (UP : 0 < B2R (pr_price a : f32) * Fa) by (apply Rmult_lt_0_compat; lra).
    assert (LP : 0 < B2R (pr_price a : f32) / Fa) by (apply Rdiv_lt_0_compat; lra).
    set (pb := B2R (pr_price b : f32)) in *. set (U := B2R (pr_price a : f32) * Fa) in *. set (L := B2R (pr_price a : f32) / Fa) in *.
    assert (CU : clear_of U pb).
    { unfold clear_of. replace (2 ^ 19) with 524288 by ring. rewrite Rabs_left1 by lra. lra. }
    assert (CL : clear_of L pb).
    { unfold clear_of. replace (2 ^ 19) with 524288 by ring. rewrite Rabs_pos_eq by lra. lra. }
    assert (Fb : is_finite (pr_price b : f32) = true) by apply Sb.
    split; [|split].
    - destruct (clear_lt 16 (-40) 71 (pr_price b : f32) (@upper_edge I dev a b) U ltac:(lra) Fb HU CU) as (K & _).
      etransitivity; [exact K|]. apply Rlt_bool_false. fold pb. lra.
    - destruct (clear_lt 17 (-71) 40 (pr_price b : f32) (@lower_edge I dev a b) L ltac:(lra) Fb HL CL) as (_ & K).
      etransitivity; [exact K|]. apply Rlt_bool_false. fold pb. lra.
    - exact IH.
  Qed.
End Float.

(** ** Cleaning is not idempotent: the three records at 1000 confirm the jump to 200 but are
    dropped themselves, after which nothing confirms it. *)
Section Cases.
  Context (lm : libm) (as_ : bool) (sh : R -> String.string) (as' : bool).
  Local Notation I := (ieee lm as_).

  Definition twice_hist : list (@price_record I) :=
    [h_rec 60 100 1; h_rec 120 200 1; h_rec 180 1000 1; h_rec 240 1000 1; h_rec 300 1000 1; h_rec 360 100 1].
  Definition twice_dev : @flt I := @flit I 1 20.

  Theorem C112_idempotent_refuted :
    exists l dev, let once := fst (@RemoveOutliers I l dev None) in
      fst (@RemoveOutliers I once dev None) <> once.
  Proof.
    exists twice_hist, twice_dev. cbv zeta. intros H.
    assert (K : map (@pr_timestamp_sec I) (fst (@RemoveOutliers I (fst (@RemoveOutliers I twice_hist twice_dev None)) twice_dev None))
              = map (@pr_timestamp_sec I) (fst (@RemoveOutliers I twice_hist twice_dev None))) by (rewrite H; reflexivity).
    revert K. vm_compute. discriminate.
  Qed.

  (** ** The history of HistoryProps (a spike, a malformed record): its exact mask, and that
      every decision is clear. *)
  Local Notation E := (exact sh as').
  Definition h_mask : list bool := [true; true; false; false; true].
  Definition e_rec (t p v : Z) : @price_record E := @PriceRecord E t (IZR p) (IZR v).
  Definition e_hist : list (@price_record E) :=
    [e_rec 65 10 1; e_rec 70 12 2; e_rec 130 1000 1; e_rec 131 12 (-1); e_rec 310 13 4].

  Lemma h_real : map (real_record lm as_ sh as') (@h_hist lm as_) = e_hist.
  Proof.
    unfold h_hist, e_hist, e_rec, real_record. cbn [map h_rec pr_timestamp_sec pr_price pr_volume].
    assert (K : forall z, (Z.abs z <= 2 ^ 24)%Z -> B2R (f32_of_Z z) = IZR z) by (intros z Hz; apply (ofZ_finite z Hz)).
    rewrite !K by lia. reflexivity.
  Qed.

  Lemma e_bad t p v : (0 < p)%Z -> @bad_record E (e_rec t p v) = (v <? 0)%Z.
  Proof.
    intros Hp. unfold bad_record, e_rec. cbn [exact fleb fltb fofZ pr_price pr_volume].
    rewrite Rle_bool_false by (apply IZR_lt; exact Hp). cbn [orb].
    destruct (Z.ltb_spec v 0); [apply Rlt_bool_true; apply IZR_lt; assumption|apply Rlt_bool_false; apply IZR_le; assumption].
  Qed.

  (** The factor over up to a minute, and over four. *)
  Lemma e_short t1 p1 v1 t2 p2 v2 : (t2 - t1 <= 60)%Z -> @jump_factor E 1 (e_rec t1 p1 v1) (e_rec t2 p2 v2) = 2.
  Proof.
    intros H. unfold jump_factor, fmax, e_rec. cbn [exact fmul fadd fofZ fsqrt fltb fdiv pr_timestamp_sec].
    assert (IZR (t2 - t1) <= 60) by (apply IZR_le; exact H).
    rewrite Rlt_bool_false by lra. rewrite sqrt_1. lra.
  Qed.
  Lemma e_four p1 v1 p2 v2 : @jump_factor E 1 (e_rec 70 p1 v1) (e_rec 310 p2 v2) = 4.
  Proof.
    unfold jump_factor, fmax, e_rec. cbn [exact fmul fadd fofZ fsqrt fltb fdiv pr_timestamp_sec].
    change (310 - 70)%Z with 240%Z. rewrite Rlt_bool_true by lra. replace (240 / 60) with (2 * 2) by lra. rewrite sqrt_square; lra.
  Qed.

  Lemma e_case t1 p1 v1 t2 p2 v2 f later : @jump_factor E 1 (e_rec t1 p1 v1) (e_rec t2 p2 v2) = f -> 0 < f ->
    @upper_edge E 1 (e_rec t1 p1 v1) (e_rec t2 p2 v2) = IZR p1 * f /\ @lower_edge E 1 (e_rec t1 p1 v1) (e_rec t2 p2 v2) = IZR p1 / f /\
    (IZR p1 / f <= IZR p2 <= IZR p1 * f -> @unsupported_jump E 1 (e_rec t1 p1 v1) (e_rec t2 p2 v2) later = false).
  Proof.
    intros Hf P. assert (U : @upper_edge E 1 (e_rec t1 p1 v1) (e_rec t2 p2 v2) = IZR p1 * f) by (unfold upper_edge; rewrite Hf; reflexivity).
    assert (L : @lower_edge E 1 (e_rec t1 p1 v1) (e_rec t2 p2 v2) = IZR p1 / f) by (unfold lower_edge; rewrite Hf; reflexivity).
    split; [exact U|]. split; [exact L|]. intros H. unfold unsupported_jump, jumps_up, jumps_down. rewrite U, L. cbn [exact fltb pr_price e_rec].
    rewrite !Rlt_bool_false by lra. reflexivity.
  Qed.

  Lemma C112_ex :
    @right_mask E 1 e_hist h_mask /\ clear_history sh as' 1 e_hist h_mask /\
    Forall (sane_record lm as_) (@h_hist lm as_) /\
    map (@pr_timestamp_sec I) (fst (@RemoveOutliers I h_hist h_dev (Some []))) = [65; 70; 310]%Z /\
    snd (@RemoveOutliers I h_hist h_dev (Some [])) = Some [2; 3]%Z /\
    (* a quiet history: prices 10, 12, 11 with a deviation of 100% *)
    quiet lm as_ 1 [h_rec 65 10 1; h_rec 70 12 2; h_rec 130 11 1].
  Proof.
    destruct (e_case 65 10 1 70 12 2 2 [e_rec 130 1000 1; e_rec 131 12 (-1); e_rec 310 13 4] (e_short 65 10 1 70 12 2 ltac:(lia)) ltac:(lra)) as (U1 & L1 & N1).
    destruct (e_case 70 12 2 130 1000 1 2 [] (e_short 70 12 2 130 1000 1 ltac:(lia)) ltac:(lra)) as (U2 & L2 & _).
    destruct (e_case 70 12 2 310 13 4 4 [] (e_four _ _ _ _) ltac:(lra)) as (U4 & L4 & N4).
    assert (T2 : @toward E (12 * 2) (e_rec 70 12 2) = 216 / 10) by (unfold toward, flit; cbn [exact fadd fmul fdiv fofZ e_rec pr_price]; lra).
    assert (JU : @jumps_up E 1 (e_rec 70 12 2) (e_rec 130 1000 1) = true) by (unfold jumps_up; rewrite U2; apply Rlt_bool_true; cbn [e_rec pr_price]; lra).
    assert (JD : @jumps_down E 1 (e_rec 70 12 2) (e_rec 130 1000 1) = false) by (unfold jumps_down; rewrite L2; apply Rlt_bool_false; cbn [e_rec pr_price]; lra).
    assert (J2 : @unsupported_jump E 1 (e_rec 70 12 2) (e_rec 130 1000 1) [e_rec 131 12 (-1); e_rec 310 13 4] = true).
    { unfold unsupported_jump. rewrite JU, JD. cbn [orb andb]. apply Nat.ltb_lt.
      cbn [filter]. rewrite !e_bad by lia. change (-1 <? 0)%Z with true. change (4 <? 0)%Z with false. cbn [negb filter firstn].
      destruct (confirms _ _ _ _); cbn [length]; lia. }
    assert (R : forall t p, (0 <= t < 2 ^ 40)%Z -> (1 <= p <= 1000)%Z -> forall v, (-10 <= v <= 10)%Z -> sane_record lm as_ (@h_rec lm as_ t p v)).
    { intros t p Ht Hp v Hv. destruct (ofZ_finite p) as (F1 & E1); [lia|]. destruct (ofZ_finite v) as (F2 & E2); [lia|].
      split; [exact F1|]. split; [exact F2|]. split; [|exact Ht]. intros _. cbn [h_rec pr_price]. change (@flt I) with f32 in *. rewrite E1.
      assert (1 <= IZR p <= 1000) by (split; apply IZR_le; lia). assert (1024 <= 2 ^ 40) by lra. split; [|lra].
      apply Rle_trans with 1; [|lra]. rewrite <- Rinv_1. apply Rinv_le; lra. }
    split.
    { split; [reflexivity|]. intros i r Hi. destruct i as [|[|[|[|[|i]]]]]; cbn [nth_error e_hist] in Hi; try discriminate; try (destruct i; discriminate);
        injection Hi as <-; rewrite e_bad by lia; cbn [nth_error h_mask e_hist firstn select rev app skipn Z.ltb Z.compare negb andb].
      - reflexivity.
      - rewrite N1 by lra. reflexivity.
      - rewrite J2. reflexivity.
      - reflexivity.
      - rewrite N4 by lra. reflexivity. }
    split.
    { intros i r prev Hi Hb Hp. destruct i as [|[|[|[|[|i]]]]]; cbn [nth_error e_hist] in Hi; try discriminate; try (destruct i; discriminate);
        injection Hi as <-; rewrite e_bad in Hb by lia; try discriminate Hb;
        cbn [nth_error h_mask e_hist firstn select rev app hd_error] in Hp; try discriminate Hp; injection Hp as <-; unfold clear_decision, clear_of; cbn [skipn e_hist].
      - rewrite U1, L1. cbn [e_rec pr_price]. replace (2 ^ 19) with 524288 by ring. split; [rewrite Rabs_left1; lra|]. split; [rewrite Rabs_pos_eq; lra|].
        intros x _. unfold jumps_up, jumps_down. rewrite U1, L1. cbn [exact fltb e_rec pr_price]. rewrite !Rlt_bool_false by lra. split; discriminate.
      - rewrite U2, L2, JU, JD. cbn [e_rec pr_price]. replace (2 ^ 19) with 524288 by ring. split; [rewrite Rabs_pos_eq; lra|]. split; [rewrite Rabs_pos_eq; lra|].
        intros x Hx. split; [|discriminate]. intros _. fold (e_rec 70 12 2). rewrite T2. cbn [filter] in Hx. rewrite !e_bad in Hx by lia. change (-1 <? 0)%Z with true in Hx. change (4 <? 0)%Z with false in Hx.
        cbn [negb firstn] in Hx. destruct Hx as [<-|[]]. cbn [e_rec pr_price]. rewrite Rabs_left1; lra.
      - rewrite U4, L4. cbn [e_rec pr_price]. replace (2 ^ 19) with 524288 by ring. split; [rewrite Rabs_left1; lra|]. split; [rewrite Rabs_pos_eq; lra|].
        intros x []. }
    split; [unfold h_hist; do 5 (apply Forall_cons; [apply R; lia|]); apply Forall_nil|].
    split; [vm_compute; reflexivity|]. split; [vm_compute; reflexivity|].
    assert (K : forall z, (Z.abs z <= 2 ^ 24)%Z -> B2R (f32_of_Z z) = IZR z) by (intros z Hz; apply (ofZ_finite z Hz)).
    cbn [quiet h_rec pr_price]. change (@flt I) with f32 in *. rewrite !K by lia. replace (2 ^ 18) with 262144 by ring. repeat split; lra.
  Qed.
End Cases.

Print Assumptions C112_nothing_removed.
Print Assumptions C112_again.
Print Assumptions C112_exact_rule.
Print Assumptions C112_quiet.
Print Assumptions C112_idempotent_refuted.
Print Assumptions C112_ex.
