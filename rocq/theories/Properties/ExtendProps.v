(** C127: more data does not change the candles of the past. *)
From Coq Require Import ZArith String Bool Lia.
From Coq Require Import List.
From Verif.Model Require Import Outcome Machine Types History MachineIEEE Files Convert Programs Scan.
From Verif.Spec Require Import SeriesSpec HistorySpec ReaderSpec ProtoSpec ProgramSpec ExtendSpec.
From Verif.Proofs Require Import Base SeriesProofs OutlierProofs OrderLaws ConvertProofs LastNProofs.
From Verif.Proofs Require EvalProofs.
From Verif.Properties Require Import ProgramProps.
Import ListNotations.
Local Open Scope Z_scope.

Section Any.
  Context {M : machine}.

  Lemma firstn_filter_app {A} n (l l' : list A) : (n <= List.length l)%nat -> firstn n (l ++ l') = firstn n l.
  Proof. intros H. rewrite firstn_app. replace (n - List.length l)%nat with 0%nat by lia. rewrite firstn_O, app_nil_r. reflexivity. Qed.

  Lemma jump_settled dev prev r rest q more : ten_good q ->
    unsupported_jump dev prev r ((rest ++ q) ++ more) = unsupported_jump dev prev r (rest ++ q).
  Proof.
    intros H. unfold unsupported_jump. rewrite (filter_app _ (rest ++ q)), firstn_filter_app; [reflexivity|].
    unfold ten_good in H. rewrite filter_app, app_length. lia.
  Qed.

  Lemma mask_settled dev q more : ten_good q -> forall p clean,
    firstn (List.length p) (mask_of dev clean ((p ++ q) ++ more)) = firstn (List.length p) (mask_of dev clean (p ++ q)).
  Proof.
    intros H. induction p as [|r p IH]; intros clean; [reflexivity|].
    cbn [app List.length mask_of firstn].
    assert (E : match clean with [] => true | prev :: _ => negb (unsupported_jump dev prev r ((p ++ q) ++ more)) end
                = match clean with [] => true | prev :: _ => negb (unsupported_jump dev prev r (p ++ q)) end).
    { destruct clean as [|prev clean]; [reflexivity|]. rewrite jump_settled by exact H. reflexivity. }
    rewrite E. f_equal. apply IH.
  Qed.

  Lemma right_mask_of dev l mask : right_mask dev l mask -> mask = mask_of dev [] l.
  Proof.
    intros H. apply (right_mask_unique dev l); [exact H|].
    split; [apply mask_length|]. intros i r Hi. rewrite (mask_nth dev l [] i r Hi), app_nil_r. reflexivity.
  Qed.

  Lemma select_split {A} mask (p q : list A) : List.length mask = List.length (p ++ q) ->
    select mask (p ++ q) = select (firstn (List.length p) mask) p ++ select (skipn (List.length p) mask) q.
  Proof.
    revert mask. induction p as [|x p IH]; intros mask H; [reflexivity|].
    destruct mask as [|b mask]; [discriminate|]. cbn [List.length app] in H. injection H as H.
    cbn [app List.length firstn skipn select]. destruct b; [cbn [app]; f_equal|]; apply IH; exact H.
  Qed.

  Lemma dropped_split i m1 m2 : dropped i (m1 ++ m2) = dropped i m1 ++ dropped (i + Z.of_nat (List.length m1)) m2.
  Proof.
    revert i. induction m1 as [|b m1 IH]; intros i; [cbn; f_equal; lia|].
    cbn [app dropped List.length]. rewrite IH. replace (i + 1 + Z.of_nat (List.length m1)) with (i + Z.of_nat (S (List.length m1))) by lia.
    destruct b; reflexivity.
  Qed.

  Lemma positions_dropped n mask : (n <= List.length mask)%nat ->
    positions_before (Z.of_nat n) (dropped 0 mask) = dropped 0 (firstn n mask).
  Proof.
    intros H. rewrite <- (firstn_skipn n mask) at 1. rewrite dropped_split, (firstn_length_le mask H).
    unfold positions_before. rewrite filter_app.
    assert (X : forall m i k, (k <= i)%Z -> filter (fun x => x <? k) (dropped i m) = []).
    { induction m as [|b m IH]; intros i k Hk; [reflexivity|]. cbn [dropped]. destruct b; [apply IH; lia|].
      cbn [filter]. destruct (Z.ltb_spec i k); [lia|]. apply IH. lia. }
    assert (Y : forall m i k, (i + Z.of_nat (List.length m) <= k)%Z -> filter (fun x => x <? k) (dropped i m) = dropped i m).
    { induction m as [|b m IH]; intros i k Hk; [reflexivity|]. cbn [dropped List.length] in *. destruct b; [apply IH; lia|].
      cbn [filter]. destruct (Z.ltb_spec i k); [|lia]. f_equal. apply IH. lia. }
    rewrite (X _ (0 + Z.of_nat n)) by lia. rewrite Y by (rewrite firstn_length_le by exact H; lia). apply app_nil_r.
  Qed.

  (** ** C127 Outliers: once ten well-formed records follow, a record's fate is settled. *)
  Theorem C127_outliers dev (p q more : list price_record) : ten_good q ->
    exists kept d1 d2 i1 i2,
      RemoveOutliers (p ++ q) dev (Some []) = (kept ++ d1, Some i1) /\
      RemoveOutliers ((p ++ q) ++ more) dev (Some []) = (kept ++ d2, Some i2) /\
      positions_before (Z.of_nat (List.length p)) i1 = positions_before (Z.of_nat (List.length p)) i2 /\
      List.length kept = (List.length p - List.length (positions_before (Z.of_nat (List.length p)) i1))%nat /\
      (forall r, In r kept -> In r p) /\ (forall r, In r d1 -> In r q) /\ (forall r, In r d2 -> In r (q ++ more)).
  Proof.
    intros H.
    destruct (outliers_mask dev (p ++ q)) as (m1 & R1 & E1). destruct (outliers_mask dev ((p ++ q) ++ more)) as (m2 & R2 & E2).
    pose proof R1 as [L1 _]. pose proof R2 as [L2 _]. pose proof (right_mask_of _ _ _ R1) as M1. pose proof (right_mask_of _ _ _ R2) as M2.
    pose proof (mask_settled dev q more H p []) as MS. rewrite <- M1, <- M2 in MS.
    assert (N1 : (List.length p <= List.length m1)%nat) by (rewrite L1, app_length; lia).
    assert (N2 : (List.length p <= List.length m2)%nat) by (rewrite L2, !app_length; lia).
    exists (select (firstn (List.length p) m1) p), (select (skipn (List.length p) m1) q), (select (skipn (List.length p) m2) (q ++ more)),
      (dropped 0 m1), (dropped 0 m2).
    split; [rewrite E1, select_split by exact L1; reflexivity|].
    split; [rewrite E2, <- app_assoc, select_split by (rewrite app_assoc; exact L2); rewrite MS; reflexivity|].
    split; [rewrite !positions_dropped by assumption; rewrite MS; reflexivity|].
    split.
    { rewrite positions_dropped by assumption.
      assert (X : forall m i, (List.length (dropped i m) <= List.length m)%nat).
      { induction m as [|b m IH]; intros i; [reflexivity|]. specialize (IH (i + 1)). cbn [dropped]. destruct b; cbn [List.length]; lia. }
      assert (Y : forall {A} (m : list bool) (l : list A) i, List.length m = List.length l ->
                    (List.length (select m l) + List.length (dropped i m) = List.length l)%nat).
      { intros A. induction m as [|b m IH]; intros [|x l] i E; try discriminate; [reflexivity|]. injection E as E.
        specialize (IH l (i + 1) E). cbn [select dropped]. destruct b; cbn [List.length]; lia. }
      specialize (Y _ (firstn (List.length p) m1) p 0). rewrite firstn_length_le in Y by exact N1. specialize (Y eq_refl). lia. }
    split; [|split]; intros r; apply select_in.
  Qed.

  (** ** Candles *)
  Lemma fill_grow rate down fuel : forall ticks ticks', 0 < rate -> fill_loop fuel rate down ticks = Done ticks' ->
    exists more, ticks' = more ++ ticks /\
      forall hd older, ticks = hd :: older -> Forall (fun k => timestamp_sec hd <= timestamp_sec k) more.
  Proof.
    induction fuel as [|fuel IH]; intros ticks ticks' Hr H.
    - destruct ticks as [|t ticks]; cbn [fill_loop] in H.
      + injection H as <-. exists []. split; [reflexivity|]. intros; constructor.
      + destruct (timestamp_sec t + rate <? down); [discriminate|]. injection H as <-. exists []. split; [reflexivity|]. intros; constructor.
    - destruct ticks as [|t ticks]; cbn [fill_loop] in H.
      + injection H as <-. exists []. split; [reflexivity|]. intros; constructor.
      + destruct (timestamp_sec t + rate <? down).
        * destruct (IH _ _ Hr H) as (more & -> & F). exists (more ++ [flat_tick t rate]). split; [rewrite <- app_assoc; reflexivity|].
          intros hd older E. injection E as <- <-. specialize (F _ _ eq_refl). cbn [flat_tick timestamp_sec] in F.
          apply Forall_app. split; [|constructor; [cbn [flat_tick timestamp_sec]; lia|constructor]].
          eapply Forall_impl; [|exact F]. cbn. intros; lia.
        * injection H as <-. exists []. split; [reflexivity|]. intros; constructor.
  Qed.

  Lemma step_grow rate hd older r s : 0 < rate -> resample_step rate (hd :: older) r = Done s ->
    exists hd' more, s = hd' :: more ++ older /\ Forall (fun k => timestamp_sec hd <= timestamp_sec k) (hd' :: more) /\
      rate * Z.quot (pr_timestamp_sec r) rate <= timestamp_sec hd'.
  Proof.
    intros Hr H. unfold resample_step in H. destruct (Z.eqb_spec rate 0) as [E|_]; [lia|].
    set (down := rate * Z.quot (pr_timestamp_sec r) rate) in *.
    apply bind_done in H as (ticks & H1 & H). destruct (fill_grow _ _ _ _ _ Hr H1) as (more & -> & F). specialize (F _ _ eq_refl).
    destruct more as [|t more]; cbn [app] in H.
    - destruct (Z.ltb_spec (timestamp_sec hd) down) as [L|L].
      + injection H as <-. eexists _, [hd]. split; [reflexivity|]. split; [|cbn; lia].
        constructor; [cbn; lia|]. constructor; [lia|constructor].
      + apply bind_done in H as ([] & _ & H). injection H as <-. eexists _, []. split; [reflexivity|]. split; [|cbn; lia].
        constructor; [cbn; lia|constructor].
    - apply Forall_cons_iff in F as [F1 F]. destruct (Z.ltb_spec (timestamp_sec t) down) as [L|L].
      + injection H as <-. eexists _, (t :: more ++ [hd]). split; [cbn [app]; rewrite <- app_assoc; reflexivity|]. split; [|cbn; lia].
        constructor; [cbn; lia|]. constructor; [exact F1|]. apply Forall_app. split; [exact F|]. constructor; [lia|constructor].
      + apply bind_done in H as ([] & _ & H). injection H as <-. eexists _, (more ++ [hd]). split; [rewrite <- app_assoc; reflexivity|]. split; [|cbn; lia].
        constructor; [cbn; lia|]. apply Forall_app. split; [exact F|]. constructor; [lia|constructor].
  Qed.

  Lemma fold_grow rate l : 0 < rate -> forall hd older s, foldM (resample_step rate) (hd :: older) l = Done s ->
    exists hd' more, s = hd' :: more ++ older /\ Forall (fun k => timestamp_sec hd <= timestamp_sec k) (hd' :: more).
  Proof.
    intros Hr. induction l as [|r l IH]; intros hd older s H.
    - cbn in H. injection H as <-. exists hd, []. split; [reflexivity|]. constructor; [lia|constructor].
    - cbn [foldM] in H. apply bind_done in H as (s1 & H1 & H). destruct (step_grow _ _ _ _ _ Hr H1) as (h1 & m1 & -> & F1 & _).
      destruct (IH _ _ _ H) as (h2 & m2 & -> & F2). exists h2, (m2 ++ m1). split; [rewrite <- app_assoc; reflexivity|].
      apply Forall_cons_iff in F1 as [F0 F1]. rewrite app_comm_cons. apply Forall_app. split; [|exact F1].
      eapply Forall_impl; [|exact F2]. cbn. intros; lia.
  Qed.

  (** The state after a record: what comes later leaves the older candles alone. *)
  Lemma step_first rate s0 r s : 0 < rate -> resample_step rate s0 r = Done s ->
    exists hd older, s = hd :: older /\ rate * Z.quot (pr_timestamp_sec r) rate <= timestamp_sec hd.
  Proof.
    intros Hr H. destruct s0 as [|hd0 older0].
    - unfold resample_step in H. destruct (Z.eqb_spec rate 0) as [E|_]; [lia|]. apply bind_done in H as (ticks & H1 & H).
      assert (ticks = []) as -> by (destruct (fill_fuel rate _ []); cbn in H1; injection H1 as <-; reflexivity).
      injection H as <-. eexists _, []. split; [reflexivity|]. cbn. lia.
    - destruct (step_grow _ _ _ _ _ Hr H) as (h & m & -> & _ & L). eexists h, _. split; [reflexivity|exact L].
  Qed.

  Lemma bucket_after rate t : 0 < rate -> t < rate * Z.quot t rate + rate.
  Proof. intros Hr. pose proof (Z.quot_rem' t rate). pose proof (Z.rem_bound_abs t rate). lia. Qed.

  (** Two histories that agree up to a record have the same candles up to its time. *)
  Theorem C127_candles rate (before l1 l2 : list price_record) r t1 t2 : 0 < rate ->
    Resample (before ++ r :: l1) rate = Done t1 -> Resample (before ++ r :: l2) rate = Done t2 ->
    over_by rate (pr_timestamp_sec r) t1 = over_by rate (pr_timestamp_sec r) t2.
  Proof.
    intros Hr H1 H2. unfold Resample in *. apply omap_done in H1 as (s1 & H1 & <-). apply omap_done in H2 as (s2 & H2 & <-).
    rewrite foldM_app in H1, H2. apply bind_done in H1 as (s0 & H0 & H1). rewrite H0 in H2. cbn [bind] in H2.
    cbn [foldM] in H1, H2. apply bind_done in H1 as (s & HS & H1). rewrite HS in H2. cbn [bind] in H2.
    destruct (step_first _ _ _ _ Hr HS) as (hd & older & -> & L).
    pose proof (bucket_after rate (pr_timestamp_sec r) Hr) as B.
    assert (G : forall l s', foldM (resample_step rate) (hd :: older) l = Done s' ->
                 over_by rate (pr_timestamp_sec r) (rev s') = over_by rate (pr_timestamp_sec r) (rev older)).
    { intros l s' H. destruct (fold_grow rate l Hr _ _ _ H) as (h' & m & -> & F). rewrite app_comm_cons, rev_app_distr.
      unfold over_by. rewrite filter_app.
      assert (E : filter (fun k => timestamp_sec k + rate <=? pr_timestamp_sec r) (rev (h' :: m)) = []).
      { assert (F' : Forall (fun k => timestamp_sec hd <= timestamp_sec k) (rev (h' :: m))) by (apply Forall_rev, F).
        clear - F' L B. induction F' as [|k ks K _ IH]; [reflexivity|]. cbn [filter].
        destruct (Z.leb_spec (timestamp_sec k + rate) (pr_timestamp_sec r)); [lia|exact IH]. }
      rewrite E, app_nil_r. reflexivity. }
    etransitivity; [exact (G _ _ H1)|symmetry; exact (G _ _ H2)].
  Qed.

  (** Both steps together: the candles of a longer history agree with those of the shorter
      one up to every record that is kept and followed by ten well-formed ones. *)
  Theorem C127_history dev rate (p q more : list price_record) t1 t2 : 0 < rate -> ten_good q ->
    Resample (fst (RemoveOutliers (p ++ q) dev None)) rate = Done t1 ->
    Resample (fst (RemoveOutliers ((p ++ q) ++ more) dev None)) rate = Done t2 ->
    exists mask, right_mask dev (p ++ q) mask /\
      forall r, In r (select (firstn (List.length p) mask) p) ->
        over_by rate (pr_timestamp_sec r) t1 = over_by rate (pr_timestamp_sec r) t2.
  Proof.
    intros Hr H H1 H2.
    destruct (outliers_mask dev (p ++ q)) as (m1 & R1 & E1). destruct (outliers_mask dev ((p ++ q) ++ more)) as (m2 & R2 & E2).
    exists m1. split; [exact R1|]. intros r Hin. rewrite E1 in H1. rewrite E2 in H2. cbn [fst] in *.
    pose proof R1 as [L1 _]. pose proof R2 as [L2 _].
    pose proof (mask_settled dev q more H p []) as MS. rewrite <- (right_mask_of _ _ _ R1), <- (right_mask_of _ _ _ R2) in MS.
    rewrite select_split in H1 by exact L1. rewrite <- app_assoc, select_split in H2 by (rewrite app_assoc; exact L2).
    rewrite MS in H2. apply in_split in Hin as (b & a & E). rewrite E, <- app_assoc in H1, H2. cbn [app] in H1, H2.
    eapply C127_candles; eassumption.
  Qed.
End Any.

(** ** The converter *)
Section Convert.
  Context {lm : libm} {as_ : bool}.
  Local Notation I := (ieee lm as_).

  Lemma resample_kept rate dev (h : list (@price_record I)) : 0 < rate -> valid_history pr_timestamp_sec price_ok h ->
    forall mask, right_mask dev h mask ->
      fst (RemoveOutliers h dev None) = select mask h /\
      Resample (fst (RemoveOutliers h dev None)) rate = Done (series rate (map price_tick (select mask h))).
  Proof.
    intros Hr [Ho Hv] mask Hm. destruct (outliers_mask dev h) as (m & M1 & M2).
    rewrite (right_mask_unique dev h mask m Hm M1). rewrite M2. cbn [fst]. split; [reflexivity|].
    apply (Resample_series rate Hr). apply select_ordered, Ho.
  Qed.

  Lemma all_good (q : list (@price_record I)) : (forall r, In r q -> price_ok r) -> (10 <= List.length q)%nat -> ten_good q.
  Proof.
    intros H L. unfold ten_good. replace (filter (fun r => negb (bad_record r)) q) with q; [exact L|].
    induction q as [|r q IH]; [reflexivity|]. cbn [filter]. destruct (H r (or_introl eq_refl)) as [O1 O2].
    unfold bad_record at 1. rewrite O1, O2. cbn [orb negb]. f_equal. clear L IH. induction q as [|x q IH]; [reflexivity|].
    cbn [filter]. destruct (H x (or_intror (or_introl eq_refl))) as [P1 P2]. unfold bad_record at 1. rewrite P1, P2. cbn [orb negb].
    f_equal. apply IH. intros y [->|Hy]; [apply H; left; reflexivity|apply H; right; right; exact Hy].
  Qed.

  (** Converting a price file and, later, a longer one (or more of the same one) with the
      same settings: the two candle files agree up to every record that is kept and has ten
      more records after it. *)
  Theorem C127_convert env1 env2 (sc : @scanner I) f1 f2 file1 file2 lines1 lines2 (rows1 rows2 : list (@price_record I))
      start1 end1 start2 end2 p q more :
    input_price_csv f1 file1 -> convert_times f1 start1 end1 -> outputs_writable env1 f1 ->
    readable env1 file1 = Some (text_file lines1) -> Forall no_line_feed lines1 ->
    map (line_numbers sc 2) lines1 = map Some (map (fun r => (pr_timestamp_sec r, [pr_price r; pr_volume r])) rows1) ->
    input_price_csv f2 file2 -> convert_times f2 start2 end2 -> outputs_writable env2 f2 ->
    readable env2 file2 = Some (text_file lines2) -> Forall no_line_feed lines2 ->
    map (line_numbers sc 2) lines2 = map Some (map (fun r => (pr_timestamp_sec r, [pr_price r; pr_volume r])) rows2) ->
    cf_max_price_deviation_per_min f2 = cf_max_price_deviation_per_min f1 -> cf_sampling_rate_sec f2 = cf_sampling_rate_sec f1 ->
    valid_history pr_timestamp_sec price_ok rows1 -> valid_history pr_timestamp_sec price_ok rows2 ->
    0 < cf_sampling_rate_sec f1 -> (forall r, In r rows1 \/ In r rows2 -> cf_sampling_rate_sec f1 <= pr_timestamp_sec r) ->
    Z.of_nat (List.length rows1) < 2 ^ 63 -> Z.of_nat (List.length rows2) < 2 ^ 63 ->
    let h1 := filter (fun r => in_interval start1 end1 (pr_timestamp_sec r)) rows1 in
    let h2 := filter (fun r => in_interval start2 end2 (pr_timestamp_sec r)) rows2 in
    h1 = p ++ q -> h2 = h1 ++ more -> (10 <= List.length q)%nat ->
    exists (ticks1 ticks2 : list (@ohlc_tick I)) gaps1 gaps2 mask,
      convert_main env1 sc f1 = Done (ConvertResult EXIT_SUCCESS
        (output (cf_output_price f1) (price_file h1) h1 ++ output (cf_output_ohlc f1) (tick_file ticks1) h1) gaps1) /\
      convert_main env2 sc f2 = Done (ConvertResult EXIT_SUCCESS
        (output (cf_output_price f2) (price_file h2) h2 ++ output (cf_output_ohlc f2) (tick_file ticks2) h2) gaps2) /\
      right_mask (d2f (machine := I) (cf_max_price_deviation_per_min f1)) h1 mask /\
      forall r, In r (select (firstn (List.length p) mask) p) ->
        over_by (cf_sampling_rate_sec f1) (pr_timestamp_sec r) ticks1 = over_by (cf_sampling_rate_sec f1) (pr_timestamp_sec r) ticks2.
  Proof.
    intros A1 A2 A3 A4 A5 A6 B1 B2 B3 B4 B5 B6 ED ER V1 V2 Hr Ht L1 L2 h1 h2 E1 E2 Hq.
    destruct (C70_price_csv env1 sc f1 file1 lines1 rows1 start1 end1 A1 A2 A3 A4 A5 A6 V1 Hr) as (m1 & M1 & C1); [auto|exact L1|].
    destruct (C70_price_csv env2 sc f2 file2 lines2 rows2 start2 end2 B1 B2 B3 B4 B5 B6 V2) as (m2 & M2 & C2);
      [rewrite ER; exact Hr|intros r Hin; rewrite ER; auto|exact L2|].
    fold h1 in M1, C1. fold h2 in M2, C2. rewrite ER in C2. rewrite ED in M2.
    assert (VF : forall s e rows, valid_history pr_timestamp_sec price_ok rows ->
               valid_history pr_timestamp_sec price_ok (filter (fun r : @price_record I => in_interval s e (pr_timestamp_sec r)) rows)).
    { intros s e rows [Ho Hv]. split; [apply EvalProofs.ordered_filter; exact Ho|]. intros r Hin.
      apply filter_In in Hin as [Hin _]. apply Hv, Hin. }
    pose proof (VF start1 end1 _ V1) as VH1. pose proof (VF start2 end2 _ V2) as VH2. fold h1 in VH1. fold h2 in VH2.
    destruct (resample_kept _ _ h1 Hr VH1 m1 M1) as [_ R1]. destruct (resample_kept _ _ h2 Hr VH2 m2 M2) as [_ R2].
    do 5 eexists. split; [exact C1|]. split; [exact C2|]. split; [exact M1|].
    clearbody h1 h2. subst h2. subst h1.
    assert (T : ten_good q).
    { apply all_good; [|exact Hq]. intros r Hin. apply VH1. apply in_or_app. right. exact Hin. }
    destruct (C127_history _ _ p q more _ _ Hr T R1 R2) as (m & Hm & K).
    pose proof (right_mask_unique _ _ m m1 Hm M1) as EM. subst m. exact K.
  Qed.
End Convert.

(** ** Examples *)
Section Example.
  Context (lm : libm) (as_ : bool).
  Local Notation I := (ieee lm as_).
  Local Notation n := f32_of_Z.
  Local Notation rec t x := (@PriceRecord I t (n x) (n 1)).

  (** Quotes every minute: 100, an outlier at 200, 101, then ten more, then 300. *)
  Definition xh_p : list (@price_record I) := [rec 60 100; rec 120 200; rec 180 101; rec 240 102].
  Definition xh_q : list (@price_record I) := map (fun k => rec (240 + 60 * Z.of_nat k) (100 + Z.of_nat k)) (seq 1 10).
  Definition xh_more : list (@price_record I) := [rec 900 111; rec 960 300; rec 1020 300; rec 1080 300; rec 1140 300].

  Lemma C127_ex : ten_good xh_q /\
    exists t1 t2, Resample (fst (RemoveOutliers (xh_p ++ xh_q) (@flit I 1 10) None)) 120 = Done t1 /\
      Resample (fst (RemoveOutliers ((xh_p ++ xh_q) ++ xh_more) (@flit I 1 10) None)) 120 = Done t2 /\
      List.length t1 = 8%nat /\ List.length t2 = 10%nat /\
      List.length (over_by 120 240 t1) = 2%nat /\ over_by 120 240 t1 = over_by 120 240 t2 /\
      (forall mask, right_mask (@flit I 1 10) (xh_p ++ xh_q) mask ->
         select (firstn 4 mask) xh_p = [rec 60 100; rec 180 101; rec 240 102]).
  Proof.
    assert (T : ten_good xh_q) by (unfold ten_good, xh_q; clear; destruct as_; vm_compute; lia).
    split; [exact T|].
    assert (H1 : omap (fun t => (List.length t, List.length (over_by 120 240 t))) (Resample (fst (RemoveOutliers (xh_p ++ xh_q) (@flit I 1 10) None)) 120) = Done (8%nat, 2%nat)).
    { clear. unfold xh_p, xh_q. destruct as_; vm_compute; reflexivity. }
    assert (H2 : omap (@List.length _) (Resample (fst (RemoveOutliers ((xh_p ++ xh_q) ++ xh_more) (@flit I 1 10) None)) 120) = Done 10%nat).
    { clear. unfold xh_p, xh_q, xh_more. destruct as_; vm_compute; reflexivity. }
    assert (H3 : mask_of (@flit I 1 10) [] (xh_p ++ xh_q) = [true; false] ++ repeat true 12).
    { clear. unfold xh_p, xh_q. destruct as_; vm_compute; reflexivity. }
    apply omap_done in H1 as (t1 & R1 & E1). apply omap_done in H2 as (t2 & R2 & E2). injection E1 as E1 E1'.
    exists t1, t2. split; [exact R1|]. split; [exact R2|]. split; [exact E1|]. split; [exact E2|]. split; [exact E1'|].
    destruct (C127_history (@flit I 1 10) 120 xh_p xh_q xh_more t1 t2 ltac:(lia) T R1 R2) as (mask & Hm & K).
    assert (S : forall mask, right_mask (@flit I 1 10) (xh_p ++ xh_q) mask ->
         select (firstn 4 mask) xh_p = [rec 60 100; rec 180 101; rec 240 102]).
    { intros m Hr. rewrite (right_mask_of _ _ _ Hr), H3. reflexivity. }
    split; [|exact S]. specialize (S mask Hm). change (List.length xh_p) with 4%nat in K. rewrite S in K.
    apply (K (rec 240 102)). right. right. left. reflexivity.
  Qed.

  (** Before ten records have followed the fate of a record is open: a jump that is removed
      today is kept once three more records confirm it. *)
  Theorem C127_unsettled_refuted :
    exists (h more : list (@price_record I)) dev, List.length h = 2%nat /\ List.length more = 3%nat /\
      snd (RemoveOutliers h dev (Some [])) = Some [1] /\
      snd (RemoveOutliers (h ++ more) dev (Some [])) = Some [].
  Proof.
    exists [rec 60 100; rec 120 200], [rec 180 200; rec 240 200; rec 300 200], (@flit I 1 10).
    split; [reflexivity|]. split; [reflexivity|]. split; clear; destruct as_; vm_compute; reflexivity.
  Qed.
End Example.
