(** The checked integer arithmetic of Model/Ints.v agrees with the unbounded arithmetic of the rest
    of the model on realistic inputs. *)
From Coq Require Import ZArith Bool String List Lia.
From Verif.Model Require Import Outcome Machine Types Account Search History SideInput Indicators TimeUtil Eval Traders Ints.
From Verif.Proofs Require Import Base SearchProofs.
From Verif.Spec Require Import IntSpec.
Import ListNotations.
Open Scope Z_scope.

Lemma int64_fits z : - 2 ^ 63 <= z < 2 ^ 63 -> int64 z = Done z.
Proof.
  intros H. unfold int64, fits64.
  replace (- 2 ^ 63 <=? z) with true by (symmetry; apply Z.leb_le; lia).
  replace (z <? 2 ^ 63) with true by (symmetry; apply Z.ltb_lt; lia). reflexivity.
Qed.

Lemma int32_fits z : - 2 ^ 31 <= z < 2 ^ 31 -> int32 z = Done z.
Proof.
  intros H. unfold int32, fits32.
  replace (- 2 ^ 31 <=? z) with true by (symmetry; apply Z.leb_le; lia).
  replace (z <? 2 ^ 31) with true by (symmetry; apply Z.ltb_lt; lia). reflexivity.
Qed.

Lemma fits64_true z : - 2 ^ 63 <= z < 2 ^ 63 -> fits64 z = true.
Proof.
  intros H. unfold fits64.
  replace (- 2 ^ 63 <=? z) with true by (symmetry; apply Z.leb_le; lia).
  replace (z <? 2 ^ 63) with true by (symmetry; apply Z.ltb_lt; lia). reflexivity.
Qed.

Lemma far_val : far = 1152921504606846976.
Proof. reflexivity. Qed.

(** Truncated division. *)
Lemma quot_between p t : 0 < p -> Z.abs (p * Z.quot t p) <= Z.abs t.
Proof.
  intros Hp. pose proof (Z.quot_rem' t p) as E.
  pose proof (Z.rem_bound_abs t p ltac:(lia)) as B.
  destruct (Z_le_gt_dec 0 t) as [H|H].
  - pose proof (Z.rem_nonneg t p ltac:(lia) H). pose proof (Z.quot_pos t p H Hp). nia.
  - pose proof (Z.rem_nonpos t p ltac:(lia) ltac:(lia)).
    assert (Z.quot t p <= 0) by (rewrite <- (Z.opp_involutive t), Z.quot_opp_l by lia;
      pose proof (Z.quot_pos (- t) p ltac:(lia) Hp); lia). nia.
Qed.

Lemma quot_abs_le p t : 0 < p -> Z.abs (Z.quot t p) <= Z.abs t.
Proof.
  intros Hp. pose proof (quot_between p t Hp). rewrite Z.abs_mul in H. nia.
Qed.

Lemma round_down_fits p t : 0 < p -> - far <= t <= far -> round_down p t = Done (p * Z.quot t p).
Proof.
  intros Hp Ht. rewrite far_val in Ht. unfold round_down.
  replace (p =? 0) with false by (symmetry; apply Z.eqb_neq; lia).
  pose proof (quot_between p t Hp). pose proof (quot_abs_le p t Hp).
  rewrite int64_fits by lia. cbn [bind]. apply int64_fits. lia.
Qed.

Lemma quot_mono p a b : 0 < p -> a <= b -> Z.quot a p <= Z.quot b p.
Proof. intros Hp. apply Z.quot_le_mono. exact Hp. Qed.

Lemma quot_span p lo hi : few_periods p lo hi -> lo <= hi -> Z.quot hi p - Z.quot lo p + 1 < 2 ^ 31 - 1.
Proof.
  intros ((Hp & _) & H) L.
  pose proof (Z.quot_rem' lo p) as E1. pose proof (Z.quot_rem' hi p) as E2.
  pose proof (Z.rem_bound_abs lo p ltac:(lia)). pose proof (Z.rem_bound_abs hi p ltac:(lia)).
  nia.
Qed.

(** A loop with an invariant on which two bodies agree. *)
Lemma foldM_agree {A S} (f g : S -> A -> outcome S) (P : A -> Prop) (Inv : Z -> S -> Prop) l :
  forall k s,
  (forall j s a, k <= j < k + Z.of_nat (length l) -> Inv j s -> P a ->
     f s a = g s a /\ forall s', g s a = Done s' -> Inv (j + 1) s') ->
  Forall P l -> Inv k s ->
  foldM f s l = foldM g s l /\
  (forall s', foldM g s l = Done s' -> Inv (k + Z.of_nat (length l)) s').
Proof.
  induction l as [|a l IH]; intros k s Hstep Hl Hs.
  - cbn [foldM length]. split; [reflexivity|]. intros s' H. injection H as <-.
    replace (k + Z.of_nat 0) with k by lia. exact Hs.
  - apply Forall_cons_iff in Hl as (Ha & Hl). cbn [foldM].
    cbn [length] in Hstep.
    destruct (Hstep k s a ltac:(lia) Hs Ha) as (E & HI). rewrite E.
    destruct (g s a) as [s1| | | |] eqn:G; cbn [bind];
      try (split; [reflexivity|intros ? ?; discriminate]).
    specialize (HI s1 eq_refl).
    destruct (IH (k + 1) s1) as (E1 & E2); [|exact Hl|exact HI|].
    + intros j s2 a2 Hj. apply Hstep. lia.
    + split; [exact E1|]. intros s' H. apply E2 in H.
      replace (k + Z.of_nat (length (a :: l))) with (k + 1 + Z.of_nat (length l)) by (cbn [length]; lia).
      exact H.
Qed.

Section IntProofs.
  Context {M : machine}.

  (** * Resample *)
  Definition head_within (lo hi : Z) (ticks : list ohlc_tick) : Prop :=
    match ticks with [] => True | t :: _ => lo <= timestamp_sec t <= hi end.

  Lemma fill_loop_agree rate down : 0 < rate < 2 ^ 31 -> - far <= down <= far ->
    forall fuel ticks, head_within (- far) far ticks ->
    fill_loop_int fuel rate down ticks = fill_loop fuel rate down ticks /\
    forall ticks', fill_loop fuel rate down ticks = Done ticks' -> head_within (- far) far ticks'.
  Proof.
    intros Hr Hd. induction fuel as [|fuel IH]; intros [|t ticks] Ht; cbn [fill_loop_int fill_loop].
    - split; [reflexivity|]. intros ? H; injection H as <-. exact I.
    - cbn [head_within] in Ht. rewrite far_val in *. rewrite int64_fits by lia. cbn [bind].
      destruct (_ <? _); (split; [reflexivity|]); intros ? H; [discriminate|injection H as <-; cbn; exact Ht].
    - split; [reflexivity|]. intros ? H; injection H as <-. exact I.
    - cbn [head_within] in Ht. pose proof far_val as FV. rewrite int64_fits by lia. cbn [bind].
      destruct (_ <? _) eqn:C.
      + apply Z.ltb_lt in C. apply IH. cbn [head_within flat_tick timestamp_sec]. lia.
      + split; [reflexivity|]. intros ? H; injection H as <-. exact Ht.
  Qed.

  Lemma resample_step_agree rate ticks r :
    0 <= rate < 2 ^ 31 -> - far <= pr_timestamp_sec r <= far -> head_within (- far) far ticks ->
    resample_step_int rate ticks r = resample_step rate ticks r /\
    forall ticks', resample_step rate ticks r = Done ticks' -> head_within (- far) far ticks'.
  Proof.
    intros Hr0 Ht Hh. unfold resample_step_int, resample_step.
    destruct (Z.eq_dec rate 0) as [->|Hne]; [split; [reflexivity|discriminate]|].
    assert (Hr : 0 < rate < 2 ^ 31) by lia. clear Hr0.
    rewrite round_down_fits by lia. cbn [bind].
    replace (rate =? 0) with false by (symmetry; apply Z.eqb_neq; lia).
    pose proof (quot_between rate (pr_timestamp_sec r) ltac:(lia)) as Q.
    set (down := rate * _) in *.
    assert (Hd : - far <= down <= far) by lia.
    destruct (fill_loop_agree rate down Hr Hd (fill_fuel rate down ticks) ticks Hh) as (E & HI).
    rewrite E. split; [reflexivity|].
    intros ticks' H. apply bind_done in H as (tk & H1 & H2). apply HI in H1.
    destruct tk as [|t older].
    - injection H2 as <-. exact Hd.
    - destruct (_ <? _).
      + injection H2 as <-. exact Hd.
      + apply bind_done in H2 as (? & _ & H2). injection H2 as <-. exact H1.
  Qed.

  Lemma Resample_agree l rate lo hi :
    0 <= rate < 2 ^ 31 -> times_within lo hi (map pr_timestamp_sec l) ->
    Resample_int l rate = Resample l rate.
  Proof.
    intros Hr (Hlo & Hhi & Hl). rewrite Forall_map in Hl. unfold Resample_int, Resample. f_equal.
    apply (foldM_agree _ _ (fun r => lo <= pr_timestamp_sec r <= hi) (fun _ => head_within (- far) far) l 0); [|exact Hl|exact I].
    intros j s a _ Hs Ha. apply resample_step_agree; [exact Hr|lia|exact Hs].
  Qed.

  (** * Gaps *)
  Definition gap_within (g : history_gap) : Prop := - far <= fst g <= far /\ - far <= snd g <= far.

  Lemma gap_cmp_agree a b : gap_within a -> gap_within b -> gap_cmp_int a b = Done (gap_cmp a b).
  Proof.
    unfold gap_within, gap_cmp_int. rewrite far_val. intros Ha Hb.
    rewrite int64_fits by lia. cbn [bind]. rewrite int64_fits by lia. cbn [bind]. rewrite int64_fits by lia. reflexivity.
  Qed.

  Lemma foldM_unit {A} (f : A -> outcome unit) l : Forall (fun a => f a = Done tt) l -> foldM (fun _ => f) tt l = Done tt.
  Proof. induction 1 as [|a l Ha _ IH]; cbn [foldM]; [reflexivity|]. rewrite Ha. exact IH. Qed.

  Lemma pq_push_agree q g : Forall gap_within q -> gap_within g -> pq_push_int q g = Done (pq_push q g).
  Proof.
    intros Hq Hg. unfold pq_push_int.
    assert (HQ : Forall gap_within (pq_push q g)) by (constructor; assumption).
    rewrite foldM_unit; [reflexivity|]. rewrite Forall_forall in *. intros a Ha. apply foldM_unit.
    apply Forall_forall. intros b Hb. rewrite gap_cmp_agree by auto. reflexivity.
  Qed.

  Lemma pq_remove_within g q : Forall gap_within q -> Forall gap_within (pq_remove g q).
  Proof.
    induction 1 as [|x q Hx Hq IH]; cbn [pq_remove]; [constructor|].
    destruct (gap_eqb x g); [exact Hq|constructor; assumption].
  Qed.

  Lemma pq_trim_within n q : Forall gap_within q -> Forall gap_within (pq_trim n q).
  Proof.
    intros H. unfold pq_trim, pq_pop. destruct (_ <? _)%nat; [|exact H].
    destruct (pq_top q); [apply pq_remove_within; exact H|constructor].
  Qed.

  Lemma gaps_loop_agree n lo hi l : - far <= lo -> hi <= far ->
    Forall (fun r => lo <= pr_timestamp_sec r <= hi) l ->
    forall prev q,
    match prev with Some p => lo <= pr_timestamp_sec p <= hi | None => True end ->
    Forall gap_within q ->
    gaps_loop_int n prev l q = Done (gaps_loop n prev l q) /\
    Forall gap_within (snd (gaps_loop n prev l q)) /\
    match fst (gaps_loop n prev l q) with Some p => lo <= pr_timestamp_sec p <= hi | None => True end.
  Proof.
    intros Hlo Hhi. induction l as [|r l IH]; intros Hl prev q Hp Hq; cbn [gaps_loop_int gaps_loop].
    - cbn [fst snd]. auto.
    - apply Forall_cons_iff in Hl as (Hr & Hl). destruct prev as [p|].
      + assert (G : gap_within (pr_timestamp_sec p, pr_timestamp_sec r)) by (unfold gap_within; cbn [fst snd]; lia).
        rewrite pq_push_agree by assumption. cbn [bind].
        apply IH; [exact Hl|exact Hr|apply pq_trim_within; constructor; assumption].
      + cbn [bind]. apply IH; assumption.
  Qed.

  Lemma GetPriceHistoryGaps_agree l start end_ n lo hi :
    times_within lo hi (start :: end_ :: map pr_timestamp_sec l) ->
    GetPriceHistoryGaps_int l start end_ n = Done (GetPriceHistoryGaps l start end_ n).
  Proof.
    intros (Hlo & Hhi & Hl). apply Forall_cons_iff in Hl as (Hs & Hl).
    apply Forall_cons_iff in Hl as (He & Hl). rewrite Forall_map in Hl.
    unfold GetPriceHistoryGaps_int, GetPriceHistoryGaps. destruct l as [|first l']; [reflexivity|].
    set (l := first :: l') in *.
    assert (Hf : lo <= pr_timestamp_sec first <= hi) by (apply Forall_cons_iff in Hl; tauto).
    set (q0 := if start >? 0 then _ else [] : list history_gap).
    assert (H0 : Forall gap_within q0).
    { unfold q0. destruct (_ >? _); repeat constructor; cbn [fst snd]; lia. }
    assert (E0 : (if start >? 0 then pq_push_int [] (start, pr_timestamp_sec first) else Done []) = Done q0).
    { unfold q0. destruct (_ >? _); [|reflexivity]. apply pq_push_agree; [constructor|].
      unfold gap_within; cbn [fst snd]; lia. }
    rewrite E0. cbn [bind].
    destruct (gaps_loop_agree n lo hi l Hlo Hhi Hl None q0 I H0) as (E1 & HQ & HP). rewrite E1. cbn [bind].
    destruct (gaps_loop n None l q0) as [prev q1]. cbn [fst snd] in HQ, HP.
    destruct (end_ >? 0); [|reflexivity]. destruct prev as [p|]; [|reflexivity].
    rewrite pq_push_agree; [reflexivity|exact HQ|]. unfold gap_within; cbn [fst snd]; lia.
  Qed.

  (** * RemoveOutliers *)
  Lemma is_outlier_agree dev prev r rest :
    - far <= pr_timestamp_sec prev <= far -> - far <= pr_timestamp_sec r <= far ->
    is_outlier_int dev prev r rest = Done (is_outlier dev prev r rest).
  Proof.
    intros H1 H2. unfold is_outlier_int. rewrite far_val in *. rewrite int64_fits by lia. cbn [bind].
    unfold is_outlier. cbn [pr_timestamp_sec pr_price pr_volume]. rewrite Z.sub_0_r. reflexivity.
  Qed.

  Lemma outliers_loop_agree dev l : Forall (fun r => - far <= pr_timestamp_sec r <= far) l ->
    forall i clean idx, Forall (fun r => - far <= pr_timestamp_sec r <= far) clean ->
    outliers_loop_int dev l i clean idx = Done (outliers_loop dev l i clean idx).
  Proof.
    induction l as [|r l IH]; intros Hl i clean idx Hc; cbn [outliers_loop_int outliers_loop]; [reflexivity|].
    apply Forall_cons_iff in Hl as (Hr & Hl).
    destruct (malformed r); [apply IH; assumption|].
    destruct clean as [|prev older].
    - apply IH; [exact Hl|repeat constructor; lia].
    - rewrite is_outlier_agree by (apply Forall_cons_iff in Hc; tauto). cbn [bind].
      destruct (is_outlier dev prev r l); apply IH; try assumption. constructor; assumption.
  Qed.

  Lemma RemoveOutliers_agree l dev idx lo hi :
    times_within lo hi (map pr_timestamp_sec l) ->
    RemoveOutliers_int l dev idx = Done (RemoveOutliers l dev idx).
  Proof.
    intros (Hlo & Hhi & Hl). rewrite Forall_map in Hl. unfold RemoveOutliers_int, RemoveOutliers.
    rewrite outliers_loop_agree; [|eapply Forall_impl; [|exact Hl]; cbn beta; intros; lia|constructor].
    cbn [bind]. destruct (outliers_loop _ _ _ _ _). reflexivity.
  Qed.

  (** * Side input *)
  Lemma signals_loop_agree s n : forall offset i acc,
    0 <= offset -> 0 <= i -> offset + i + Z.of_nat n <= 2 ^ 31 - 1 ->
    signals_loop_int s n offset i acc = signals_loop s n (offset + i) acc.
  Proof.
    induction n as [|n IH]; intros offset i acc H1 H2 H3; cbn [signals_loop_int signals_loop]; [reflexivity|].
    rewrite int32_fits by lia. cbn [bind]. apply bind_ext. intros x _.
    rewrite int32_fits by lia. cbn [bind]. rewrite IH by lia. f_equal. lia.
  Qed.

  Lemma GetSideInputSignals_agree s i acc :
    side_input_fits s -> 0 <= i < GetNumberOfRecords s ->
    GetSideInputSignals_int s i acc = GetSideInputSignals s i acc.
  Proof.
    intros (Hn & Hr & Hm & _) Hi. unfold GetNumberOfSignals in *.
    unfold GetSideInputSignals_int, GetSideInputSignals. apply bind_ext. intros _ _.
    assert (B : i * num_signals s + num_signals s <= GetNumberOfRecords s * num_signals s).
    { replace (i * num_signals s + num_signals s) with ((i + 1) * num_signals s) by ring.
      apply Z.mul_le_mono_nonneg_r; lia. }
    assert (B0 : 0 <= i * num_signals s) by (apply Z.mul_nonneg_nonneg; lia).
    rewrite int32_fits by lia. cbn [bind]. rewrite signals_loop_agree by lia. f_equal. lia.
  Qed.

  Lemma upper_bound_from_le l first t : (first <= length l)%nat -> (first <= upper_bound_from l first t <= length l)%nat.
  Proof.
    intros H. unfold upper_bound_from.
    match goal with |- context [search ?g ?f ?n] => pose proof (search_range g f n) end. lia.
  Qed.

  Lemma at_done {A} (l : list A) i x : at_ l i = Done x -> 0 <= i < Z.of_nat (length l).
  Proof.
    unfold at_. destruct (i <? 0) eqn:C; [discriminate|]. apply Z.ltb_ge in C.
    destruct (nth_error l (Z.to_nat i)) eqn:E; [|discriminate]. intros _.
    assert (Z.to_nat i < length l)%nat by (apply nth_error_Some; congruence). lia.
  Qed.

  Lemma GetSideInputIndexHint_agree s t prev :
    side_input_fits s -> -1 <= prev < GetNumberOfRecords s ->
    GetSideInputIndexHint_int s t prev = GetSideInputIndexHint s t prev /\
    forall i, GetSideInputIndexHint s t prev = Done i -> -1 <= i < GetNumberOfRecords s.
  Proof.
    intros (_ & Hr & _ & _) Hp. unfold GetNumberOfRecords in *.
    unfold GetSideInputIndexHint_int, GetSideInputIndexHint, GetSideInputIndex_int, GetSideInputIndex.
    set (l := timestamp_sec_history s) in *.
    destruct (prev <? 0) eqn:Cp.
    - pose proof (upper_bound_from_le l 0 t ltac:(lia)).
      rewrite int32_fits by lia. split; [reflexivity|]. intros i H1; injection H1 as <-. lia.
    - apply Z.ltb_ge in Cp. rewrite (int32_fits (prev + 1)) by lia. rewrite (int32_fits (prev + 2)) by lia.
      cbn [bind].
      destruct (Z.of_nat (length l) <? prev + 2) eqn:Cs.
      + split; [reflexivity|]. intros i H.
        apply bind_done in H as (? & _ & H). apply bind_done in H as (c1 & H1 & H).
        destruct c1; [injection H as <-; lia|].
        apply bind_done in H as (c2 & H2 & H).
        destruct c2; [|discriminate]. injection H as <-.
        destruct (prev =? (Z.of_nat (length l) - 1) mod 2 ^ 64); [discriminate|].
        apply bind_done in H1 as (y & H1 & _). apply at_done in H1. lia.
      + apply Z.ltb_ge in Cs.
        pose proof (upper_bound_from_le l (Z.to_nat (prev + 2)) t ltac:(lia)).
        rewrite int32_fits by lia. split; [reflexivity|]. intros i H0.
        apply bind_done in H0 as (? & _ & H0). apply bind_done in H0 as (c1 & H1 & H0).
        destruct c1; [injection H0 as <-; lia|].
        apply bind_done in H0 as (c2 & H2 & H0).
        destruct c2; injection H0 as <-; lia.
  Qed.

  (** * LastNOhlcTicks *)
  Section LastN.
    Context {S : Type} (handler : S -> list ohlc_tick -> tick_event -> outcome S) (count : S -> Z).
    (** The counters go up by at most one for a new tick, and not at all for an updated one. *)
    Definition counts_ticks : Prop :=
      forall s ticks e s', 0 <= count s -> handler s ticks e = Done s' ->
        0 <= count s' <= count s + match e with TickUpdated _ _ => 0 | _ => 1 end.
    Context (HC : counts_ticks) (n period lo hi : Z).
    Context (Hfar : - far <= lo /\ hi <= far) (Hspan : few_periods period lo hi) (Hlohi : lo <= hi).

    Definition counted (st : list ohlc_tick * S) : Prop :=
      0 <= count (snd st) /\
      match fst st with
      | [] => count (snd st) = 0
      | t :: _ => exists q, timestamp_sec t = period * q /\ Z.quot lo period <= q <= Z.quot hi period /\
                            count (snd st) <= q - Z.quot lo period + 1
      end.

    Lemma NewOhlcTickAdded_agree t q ticks s :
      timestamp_sec t = period * q -> Z.quot lo period <= q <= Z.quot hi period ->
      0 <= count s <= q - Z.quot lo period ->
      NewOhlcTickAdded (handler_int handler count) n (t :: ticks) s = NewOhlcTickAdded handler n (t :: ticks) s /\
      forall st, NewOhlcTickAdded handler n (t :: ticks) s = Done st -> counted st /\ exists older, fst st = t :: older.
    Proof.
      intros Ht Hq Hc. pose proof (quot_span _ _ _ Hspan Hlohi) as QS.
      unfold NewOhlcTickAdded. destruct (_ <=? _).
      - cbn [handler_int]. rewrite int32_fits by lia. cbn [bind]. split; [reflexivity|].
        intros st H. apply bind_done in H as (s' & H1 & H2). injection H2 as <-.
        pose proof (HC _ _ _ _ (proj1 Hc) H1) as G. cbn in G. split; [|exists ticks; reflexivity].
        unfold counted. cbn [fst snd]. split; [lia|]. exists q. split; [exact Ht|]. split; [exact Hq|lia].
      - destruct (removelast (t :: ticks)) as [|t' tk] eqn:E; [split; [reflexivity|discriminate]|].
        cbn [handler_int]. rewrite int32_fits by lia. cbn [bind]. split; [reflexivity|].
        intros st H. apply bind_done in H as (s' & H1 & H2). injection H2 as <-.
        assert (t' = t) as -> by (cbn [removelast] in E; destruct ticks; [discriminate|injection E as E _; congruence]).
        pose proof (HC _ _ _ _ (proj1 Hc) H1) as G. cbn in G. split; [|exists tk; reflexivity].
        unfold counted. cbn [fst snd]. split; [lia|]. exists q. split; [exact Ht|]. split; [exact Hq|lia].
    Qed.

    Lemma period_pos : 0 < period < 2 ^ 31.
    Proof. apply Hspan. Qed.

    Lemma period_times_far q : Z.quot lo period <= q <= Z.quot hi period -> - far <= period * q <= far.
    Proof.
      intros Hq. pose proof period_pos.
      pose proof (quot_between period lo ltac:(lia)). pose proof (quot_between period hi ltac:(lia)).
      nia.
    Qed.

    Lemma lastn_fill_agree qa : Z.quot lo period <= qa <= Z.quot hi period ->
      forall fuel ticks s, counted (ticks, s) ->
      lastn_fill_int handler count fuel n period (period * qa) ticks s
        = lastn_fill handler fuel n period (period * qa) ticks s /\
      forall st, lastn_fill handler fuel n period (period * qa) ticks s = Done st ->
        counted st /\ match fst st with [] => True | t :: _ => period * (qa - 1) <= timestamp_sec t end.
    Proof.
      intros Hqa. pose proof period_pos as PP. pose proof far_val as FV.
      induction fuel as [|fuel IH]; intros [|t ticks] s Hc; cbn [lastn_fill_int lastn_fill].
      - split; [reflexivity|]. intros ? H; injection H as <-. split; [exact Hc|exact I].
      - destruct Hc as (Hc0 & q & Ht & Hq & Hc); cbn [fst snd] in *.
        pose proof (period_times_far q Hq). rewrite int64_fits by lia. cbn [bind].
        destruct (_ <? _) eqn:C; (split; [reflexivity|]); intros ? H1; [discriminate|injection H1 as <-].
        apply Z.ltb_ge in C. cbn [fst snd]. split; [|lia]. split; [exact Hc0|]. exists q. auto.
      - split; [reflexivity|]. intros ? H; injection H as <-. split; [exact Hc|exact I].
      - destruct Hc as (Hc0 & q & Ht & Hq & Hc); cbn [fst snd] in *.
        pose proof (period_times_far q Hq). rewrite int64_fits by lia. cbn [bind].
        destruct (_ <? _) eqn:C.
        + apply Z.ltb_lt in C. assert (q + 1 < qa) by nia.
          destruct (NewOhlcTickAdded_agree (flat_tick t period) (q + 1) (t :: ticks) s) as (E & HI);
            [cbn [flat_tick timestamp_sec]; lia|lia|lia|].
          rewrite E. destruct (NewOhlcTickAdded handler n (flat_tick t period :: t :: ticks) s) as [[tk s']| | | |] eqn:G;
            cbn [bind]; try (split; [reflexivity|intros ? ?; discriminate]).
          apply IH. apply HI. reflexivity.
        + apply Z.ltb_ge in C. split; [reflexivity|]. intros ? H1; injection H1 as <-. cbn [fst snd].
          split; [|lia]. split; [exact Hc0|]. exists q. auto.
    Qed.

    Lemma LastN_Update_agree st t :
      counted st -> lo <= timestamp_sec t <= hi ->
      LastN_Update_int handler count n period st t = LastN_Update handler n period st t /\
      forall st', LastN_Update handler n period st t = Done st' -> counted st'.
    Proof.
      intros Hc Ht. pose proof period_pos as PP. destruct st as [ticks s].
      unfold LastN_Update_int, LastN_Update. rewrite round_down_fits by lia. cbn [bind].
      replace (period =? 0) with false by (symmetry; apply Z.eqb_neq; lia).
      set (qa := Z.quot (timestamp_sec t) period).
      assert (Hqa : Z.quot lo period <= qa <= Z.quot hi period).
      { unfold qa. split; apply quot_mono; lia. }
      destruct (lastn_fill_agree qa Hqa (fill_fuel period (period * qa) ticks) ticks s Hc) as (E & HI).
      rewrite E. clear E.
      destruct (lastn_fill _ _ _ _ _ _ _) as [[tk s1]| | | |] eqn:G; cbn [bind];
        try (split; [reflexivity|intros ? ?; discriminate]).
      destruct (HI _ eq_refl) as (Hc1 & Hh). cbn [fst snd] in Hh. clear HI G.
      destruct tk as [|u older].
      - destruct Hc1 as (Hc0 & Hc1). cbn [fst snd] in *.
        match goal with |- context [NewOhlcTickAdded handler n [?nt] s1] =>
          destruct (NewOhlcTickAdded_agree nt qa [] s1) as (E & HI); [reflexivity|exact Hqa|lia|] end.
        split; [exact E|]. intros st' H. apply HI in H as (H & _). exact H.
      - destruct Hc1 as (Hc0 & q & Hu & Hq & Hc1). cbn [fst snd] in *.
        destruct (timestamp_sec u <? period * qa) eqn:C.
        + apply Z.ltb_lt in C.
          match goal with |- context [NewOhlcTickAdded handler n (?nt :: u :: older) s1] =>
            destruct (NewOhlcTickAdded_agree nt qa (u :: older) s1) as (E & HI); [reflexivity|exact Hqa|nia|] end.
          split; [exact E|]. intros st' H. apply HI in H as (H & _). exact H.
        + split.
          * reflexivity.
          * intros st' H. apply bind_done in H as (? & _ & H). apply bind_done in H as (s2 & H1 & H2).
            injection H2 as <-. pose proof (HC _ _ _ _ Hc0 H1) as G. cbn in G.
            unfold counted. cbn [fst snd timestamp_sec]. split; [lia|]. exists q. split; [exact Hu|]. split; [exact Hq|lia].
    Qed.
  End LastN.
End IntProofs.
