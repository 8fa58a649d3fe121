(** C30-C38: history subsets, resampling, outliers, gaps, conversion. *)
From Coq Require Import Reals ZArith Bool List Lia Lra Permutation.
From Flocq Require Import Core BinarySingleNaN.
From Verif.Model Require Import Outcome Machine Types Search History Indicators Proto Convert MachineR MachineIEEE.
From Verif.Spec Require Import SeriesSpec HistorySpec ReaderSpec.
From Verif.Proofs Require Import Base SeriesProofs LastNProofs OrderLaws SeriesValid OutlierProofs SubsetProofs
     GapProofs ReaderProofs ConvertProofs.
Import ListNotations.

(** ** C30 Subsets. *)
Theorem C30_subset {T} (ts : T -> Z) (history : list T) start end_ :
  ordered ts history -> (start <= end_ \/ start <= 0 \/ end_ <= 0)%Z ->
  (let (b, e) := HistorySubset ts history start end_ in
   (b <= e <= length history)%nat /\
   range history b e = filter (fun r => in_interval start end_ (ts r)) history) /\
  HistorySubsetCopy ts history start end_ = Done (filter (fun r => in_interval start end_ (ts r)) history).
Proof.
  intros Ho Hb. pose proof (subset_spec ts history start end_ Ho Hb) as H.
  unfold HistorySubsetCopy. destruct (HistorySubset ts history start end_) as [b e].
  split; [exact H|]. destruct H as [H1 H2].
  destruct (Nat.eqb_spec b e) as [->|Hne].
  - rewrite <- H2. unfold range. rewrite Nat.sub_diag. reflexivity.
  - destruct (Nat.ltb_spec e b); [lia|]. rewrite H2. reflexivity.
Qed.

(** The other case, a positive end before the start: the copy throws (or is empty). *)
Theorem C30_reversed {T} (ts : T -> Z) (history : list T) start end_ :
  ordered ts history -> (0 < end_ < start)%Z ->
  HistorySubsetCopy ts history start end_ =
  if existsb (fun r => (end_ <=? ts r) && (ts r <? start))%Z history then Thrown else Done [].
Proof.
  intros Ho Hb. unfold HistorySubsetCopy, HistorySubset.
  rewrite !Z.gtb_ltb. destruct (Z.ltb_spec 0 start), (Z.ltb_spec 0 end_); try lia.
  destruct (lower_bound_spec ts history start Ho) as (A1 & A2 & A3).
  destruct (lower_bound_spec ts history end_ Ho) as (B1 & B2 & B3).
  set (b := lower_bound ts history start) in *. set (e := lower_bound ts history end_) in *.
  destruct (existsb _ history) eqn:Ex.
  - apply existsb_exists in Ex as (r & Hr & E). apply andb_true_iff in E as [E1 E2].
    apply Z.leb_le in E1. apply Z.ltb_lt in E2. apply In_nth_error in Hr as [i Hi].
    assert (i < b)%nat by (destruct (le_lt_dec b i) as [H1|H1]; [specialize (A3 _ _ Hi H1); lia|exact H1]).
    assert (e <= i)%nat by (destruct (le_lt_dec e i) as [H2|H2]; [exact H2|specialize (B2 _ _ Hi H2); lia]).
    destruct (Nat.eqb_spec b e); [lia|]. destruct (Nat.ltb_spec e b); [reflexivity|lia].
  - assert (e = b).
    { assert (Hle : (e <= b)%nat) by (apply lower_bound_mono; auto; lia).
      destruct (Nat.eq_dec e b) as [E|Hne]; [exact E|exfalso].
      destruct (nth_error history e) as [r|] eqn:Er; [|apply nth_error_None in Er; lia].
      assert (existsb (fun r => (end_ <=? ts r) && (ts r <? start))%Z history = true); [|congruence].
      apply existsb_exists. exists r. split; [eapply nth_error_In; eauto|].
      apply andb_true_iff. split; [apply Z.leb_le; eapply B3; eauto|apply Z.ltb_lt; eapply A2; eauto]. lia. }
    rewrite H1, Nat.eqb_refl. reflexivity.
Qed.

Section AnyMachine.
  Context {M : machine}.

  (** ** C31 Resampling: every tick is the OHLC of the records of its bucket. *)
  Definition bucket_records (p b : Z) (l : list price_record) : list price_record :=
    filter (fun r => (bucket p (pr_timestamp_sec r) =? b)%Z) l.
  Definition earlier_records (p b : Z) (l : list price_record) : list price_record :=
    filter (fun r => (bucket p (pr_timestamp_sec r) <? b)%Z) l.

  Lemma filter_map_tick f (g : ohlc_tick -> bool) (l : list price_record) :
    (forall r, g (price_tick r) = f r) -> filter g (map price_tick l) = map price_tick (filter f l).
  Proof.
    intros H. induction l as [|r l IH]; [reflexivity|]. cbn [map filter]. rewrite H, IH.
    destruct (f r); reflexivity.
  Qed.

  Theorem C31_resample p l :
    (0 < p)%Z -> ordered pr_timestamp_sec l ->
    exists out, Resample l p = Done out /\
      forall t, In t out ->
        match bucket_records p (timestamp_sec t) l with
        | r :: rest =>
          open t = pr_price r /\
          high t = fold_left fmax (map pr_price rest) (pr_price r) /\
          low t = fold_left fmin (map pr_price rest) (pr_price r) /\
          close t = pr_price (last rest r) /\
          volume t = fold_left fadd (map pr_volume rest) (pr_volume r)
        | [] =>
          exists before r, earlier_records p (timestamp_sec t) l = before ++ [r] /\
            open t = pr_price r /\ high t = pr_price r /\ low t = pr_price r /\
            close t = pr_price r /\ volume t = fofZ 0
        end.
  Proof.
    intros Hp Ho. exists (series p (map price_tick l)). split; [apply Resample_series; auto|].
    intros t Ht. apply in_map_iff in Ht as (b & <- & Hb). rewrite period_tick_ts.
    assert (E1 : in_period p (map price_tick l) b = map price_tick (bucket_records p b l)).
    { apply filter_map_tick. intros r. reflexivity. }
    assert (E2 : before_period p (map price_tick l) b = map price_tick (earlier_records p b l)).
    { apply filter_map_tick. intros r. reflexivity. }
    unfold period_tick. rewrite E1, E2.
    destruct (bucket_records p b l) as [|r rest] eqn:Er.
    - cbn [map].
      assert (Ho' : ordered timestamp_sec (map price_tick l)) by (apply ordered_map; exact Ho).
      destruct (in_grid p Hp _ b Ho' Hb) as (u & us & E & Hle & _).
      destruct l as [|r0 l]; [discriminate|]. cbn [map] in E. injection E as <- _. unfold bucket_of in Hle. cbn in Hle.
      assert (Hin : In r0 (earlier_records p b (r0 :: l))).
      { apply filter_In. split; [left; reflexivity|]. apply Z.ltb_lt.
        assert (bucket p (pr_timestamp_sec r0) <> b); [|lia]. intros Hb'.
        assert (In r0 (bucket_records p b (r0 :: l))); [|rewrite Er in H; destruct H].
        apply filter_In. split; [left; reflexivity|]. apply Z.eqb_eq. exact Hb'. }
      destruct (list_snoc (earlier_records p b (r0 :: l))) as [E|(before & r & E)]; [rewrite E in Hin; destruct Hin|].
      exists before, r. split; [exact E|]. rewrite E, map_app, rev_app_distr. cbn. auto.
    - cbn [map]. cbn [open high low close volume price_tick]. split; [reflexivity|].
      rewrite !map_map. cbn. split; [reflexivity|]. split; [reflexivity|]. split; [|reflexivity].
      clear. destruct (list_snoc rest) as [->|(q & x & ->)]; [reflexivity|].
      rewrite map_app. cbn [map]. rewrite !last_snoc. reflexivity.
  Qed.

  (** ** C32 The grid: multiples of p, from the first record's bucket to the last one's. *)
  Theorem C32_grid p r l :
    (0 < p)%Z -> ordered pr_timestamp_sec (r :: l) ->
    exists out, Resample (r :: l) p = Done out /\
      (forall i t, nth_error out i = Some t -> timestamp_sec t = bucket p (pr_timestamp_sec r) + Z.of_nat i * p)%Z /\
      (exists t, nth_error out (length out - 1) = Some t /\ timestamp_sec t = bucket p (pr_timestamp_sec (last l r))) /\
      (forall t, In t out -> (p | timestamp_sec t)%Z).
  Proof.
    intros Hp Ho. exists (series p (map price_tick (r :: l))). split; [apply Resample_series; auto|].
    set (us := map price_tick (r :: l)).
    assert (Ho' : ordered timestamp_sec us) by (apply ordered_map; exact Ho).
    assert (Elast : last us (price_tick r) = price_tick (last l r)).
    { unfold us. cbn [map]. destruct (list_snoc l) as [->|(q & x & ->)]; [reflexivity|].
      rewrite map_app. cbn [map]. rewrite app_comm_cons, !last_snoc. reflexivity. }
    set (b0 := bucket p (pr_timestamp_sec r)). set (bn := bucket p (pr_timestamp_sec (last l r))).
    set (n := Z.to_nat ((bn - b0) / p)).
    assert (Eg : grid p us = map (fun i => (b0 + Z.of_nat i * p)%Z) (seq 0 (S n))).
    { unfold grid, us in *. cbn [map] in *. rewrite Elast. reflexivity. }
    assert (Hle : (b0 <= bn)%Z).
    { apply bucket_mono; [exact Hp|]. destruct (list_snoc l) as [->|(q & x & ->)]; [reflexivity|]. rewrite last_snoc.
      rewrite app_comm_cons in Ho. apply ordered_snoc in Ho as [_ Ho]. apply Ho. left. reflexivity. }
    assert (Hlen : length (series p us) = S n).
    { rewrite <- (map_length timestamp_sec), (series_grid p), Eg, map_length, seq_length. reflexivity. }
    assert (Hnth : forall i t, nth_error (series p us) i = Some t -> timestamp_sec t = (b0 + Z.of_nat i * p)%Z).
    { intros i t Hi. assert (Hi' : (i < S n)%nat) by (rewrite <- Hlen; apply nth_error_Some; congruence).
      apply (map_nth_error timestamp_sec) in Hi. rewrite (series_grid p), Eg in Hi.
      rewrite (map_nth_error _ i (seq 0 (S n)) (d := i)) in Hi; [congruence|].
      rewrite (nth_error_nth' (seq 0 (S n)) 0%nat) by (rewrite seq_length; exact Hi'). rewrite seq_nth by exact Hi'. reflexivity. }
    assert (Hdvd : forall x, (p | bucket p x)%Z) by (intros x; exists (Z.quot x p); unfold bucket; lia).
    split; [exact Hnth|]. split.
    - rewrite Hlen. replace (S n - 1)%nat with n by lia.
      destruct (nth_error (series p us) n) as [t|] eqn:E; [|apply nth_error_None in E; lia].
      exists t. split; [reflexivity|]. rewrite (Hnth n t E). unfold n.
      assert (Hd : (p | bn - b0)%Z) by (apply Z.divide_sub_r; apply Hdvd).
      assert (0 <= (bn - b0) / p)%Z by (apply Z.div_pos; lia).
      destruct Hd as [q Hq]. rewrite Z2Nat.id by assumption. rewrite Hq, Z.div_mul by lia. lia.
    - intros t Ht. apply In_nth_error in Ht as [i Hi]. rewrite (Hnth i t Hi).
      apply Z.divide_add_r; [apply Hdvd|]. exists (Z.of_nat i). reflexivity.
  Qed.

  (** Without records there are no ticks. *)
  Theorem C32_empty p : Resample [] p = Done [].
  Proof. reflexivity. Qed.

  (** ** C34, C35 Outlier removal keeps exactly the records of the right mask. *)
  Theorem C35_outliers dev l idx :
    exists mask, right_mask dev l mask /\ (forall mask', right_mask dev l mask' -> mask' = mask) /\
      fst (RemoveOutliers l dev idx) = select mask l /\
      snd (RemoveOutliers l dev idx) = match idx with None => None | Some v => Some (v ++ dropped 0 mask) end.
  Proof.
    destruct (outliers_mask dev l) as (mask & H & E). exists mask. split; [exact H|]. split.
    - intros mask' H'. eapply right_mask_unique; eauto.
    - rewrite E. auto.
  Qed.

  Theorem C34_partition dev l :
    exists idx, snd (RemoveOutliers l dev (Some [])) = Some idx /\
      fst (RemoveOutliers l dev None) = fst (RemoveOutliers l dev (Some [])) /\
      (* strictly increasing indices *)
      (forall k1 k2 a b, nth_error idx k1 = Some a -> nth_error idx k2 = Some b -> (k1 < k2)%nat -> (a < b)%Z) /\
      (* the kept records are exactly the others, in order *)
      fst (RemoveOutliers l dev (Some []))
        = map snd (filter (fun ir => negb (existsb (Z.eqb (Z.of_nat (fst ir))) idx)) (combine (seq 0 (length l)) l)) /\
      (forall i, In i idx -> (0 <= i < Z.of_nat (length l))%Z) /\
      (* kept records are well-formed *)
      (forall r, In r (fst (RemoveOutliers l dev (Some []))) -> bad_record r = false) /\
      (* the first well-formed record is kept *)
      (forall i r, nth_error l i = Some r -> bad_record r = false ->
         (forall j r', nth_error l j = Some r' -> (j < i)%nat -> bad_record r' = true) ->
         hd_error (fst (RemoveOutliers l dev (Some []))) = Some r).
  Proof.
    destruct (outliers_mask dev l) as (mask & [HL HM] & E). exists (dropped 0 mask).
    rewrite !E. cbn [fst snd app]. split; [reflexivity|]. split; [reflexivity|].
    split; [apply dropped_increasing|]. split; [|split; [|split]].
    - assert (K : forall mask (l : list price_record) i, length mask = length l ->
                  select mask l = map snd (filter (fun ir => negb (existsb (Z.eqb (Z.of_nat (fst ir))) (dropped (Z.of_nat i) mask)))
                                                  (combine (seq i (length l)) l))).
      { clear. induction mask as [|b mask IH]; intros [|a l] i HL; try discriminate; [reflexivity|].
        cbn in HL. injection HL as HL. specialize (IH l (S i) HL).
        assert (Hd : forall j, In j (dropped (Z.of_nat i + 1) mask) -> (Z.of_nat i < j)%Z) by (intros j Hj; apply dropped_nth in Hj; lia).
        assert (Hi : existsb (Z.eqb (Z.of_nat i)) (dropped (Z.of_nat i + 1) mask) = false).
        { apply not_true_is_false. intros H. apply existsb_exists in H as (x & Hx & H). apply Z.eqb_eq in H. apply Hd in Hx. lia. }
        replace (Z.of_nat (S i)) with (Z.of_nat i + 1)%Z in IH by lia.
        cbn [select length seq combine filter dropped]. destruct b; cbn [fst existsb].
        - rewrite Hi. cbn [negb map snd]. f_equal. exact IH.
        - rewrite Z.eqb_refl. cbn [orb negb]. rewrite IH. f_equal.
          apply filter_ext_in. intros [k r] Hk. cbn [fst].
          apply in_combine_l in Hk. apply in_seq in Hk. destruct (Z.eqb_spec (Z.of_nat k) (Z.of_nat i)); [lia|reflexivity]. }
      exact (K mask l 0%nat HL).
    - intros i Hi. apply dropped_nth in Hi as [H0 Hi].
      assert (Z.to_nat (i - 0) < length mask)%nat by (apply nth_error_Some; congruence). lia.
    - intros r Hr. apply select_nth in Hr as (i & Hm & Hr). rewrite (HM i r Hr) in Hm. injection Hm as Hm.
      apply andb_true_iff in Hm as [Hm _]. apply negb_true_iff in Hm. exact Hm.
    - intros i r Hi Hg Hbad.
      assert (Hpre : forall j, (j < i)%nat -> nth_error mask j = Some false).
      { intros j Hj. destruct (nth_error l j) as [r'|] eqn:Er.
        - rewrite (HM j r' Er), (Hbad j r' Er Hj). reflexivity.
        - apply nth_error_None in Er. assert (i < length l)%nat by (apply nth_error_Some; congruence). lia. }
      assert (Hempty : forall j, (j <= i)%nat -> select (firstn j mask) (firstn j l) = []).
      { clear - Hpre. revert l mask Hpre. induction i as [|i IH]; intros l mask Hpre j Hj.
        - replace j with 0%nat by lia. reflexivity.
        - destruct j as [|j]; [reflexivity|]. destruct mask as [|b mask]; [reflexivity|].
          assert (b = false) as -> by (specialize (Hpre 0%nat ltac:(lia)); cbn in Hpre; congruence).
          destruct l as [|a l]; [reflexivity|]. cbn [firstn select]. apply IH; [|lia].
          intros k Hk. apply (Hpre (S k)). lia. }
      assert (Hi' := HM i r Hi). rewrite (Hempty i (le_n _)), Hg in Hi'. cbn in Hi'.
      clear - Hi Hi' Hpre. revert l mask Hi Hi' Hpre. induction i as [|i IH]; intros l mask Hi Hi' Hpre.
      + destruct l as [|a l], mask as [|b mask]; try discriminate. cbn in Hi, Hi'. injection Hi as ->. injection Hi' as ->. reflexivity.
      + destruct l as [|a l], mask as [|b mask]; try discriminate.
        assert (b = false) as -> by (specialize (Hpre 0%nat ltac:(lia)); cbn in Hpre; congruence).
        cbn [select]. apply IH; auto. intros j Hj. apply (Hpre (S j)). lia.
  Qed.

  (** ** C36 Context. *)
  Theorem C36_context outliers size left right n :
    (0 <= size)%Z -> (0 <= left)%Z -> (0 <= right)%Z -> (0 <= n)%Z ->
    (forall j, In j outliers -> 0 <= j < size /\ j + right + 1 < 2 ^ 64)%Z ->
    let m := GetOutlierIndicesWithContext outliers size left right n in
    let sel := last_outliers n outliers in
    (* exactly the neighbours, with the flag of an outlier *)
    (forall k b, In (k, b) m <-> (exists j, In j sel /\ near size left right j k) /\ (b = true <-> In k sel)) /\
    (* in increasing order, without repetition *)
    (forall i j k b k' b', nth_error m i = Some (k, b) -> nth_error m j = Some (k', b') -> (i < j)%nat -> (k < k')%Z).
  Proof.
    intros H1 H2 H3 H4 H5. cbv zeta. destruct (context_spec outliers size left right n H1 H2 H3 H4 H5) as [[lo Hs] H].
    split; [exact H|]. generalize dependent (GetOutlierIndicesWithContext outliers size left right n). clear.
    intros m H _. revert lo H. induction m as [|[k0 b0] m IH]; intros lo H i j k b k' b' Hi Hj Hij; [destruct i; discriminate|].
    destruct H as [Ha Hb]. destruct j as [|j]; [lia|]. destruct i as [|i]; cbn in Hi, Hj.
    - injection Hi as <- <-. apply nth_error_In in Hj. eapply above_in; eauto.
    - apply (IH k0 Hb i j k b k' b'); auto. lia.
  Qed.

  (** ** C37 Gaps. *)
  Theorem C37_gaps l start end_ top_n :
    (0 < top_n)%nat ->
    let out := GetPriceHistoryGaps l start end_ top_n in
    let all := all_gaps (map pr_timestamp_sec l) start end_ in
    exists rest, Permutation (out ++ rest) all /\ length out = Nat.min top_n (length all) /\
      chronological out /\ forall g h, In g out -> In h rest -> preferred g h.
  Proof. apply gaps_spec. Qed.

  Theorem C37_none_asked l start end_ : (start <= 0)%Z -> GetPriceHistoryGaps l start end_ 0 = [].
  Proof. apply gaps_zero. Qed.

  (** With top_n = 0 and a positive start one gap is reported although none was asked for. *)
  Theorem C37_none_asked_refuted r l start end_ :
    (0 < start)%Z -> length (GetPriceHistoryGaps (r :: l) start end_ 0) = 1%nat.
  Proof. apply gaps_zero_start. Qed.

  (** The order check agrees with the specification's order. *)
  Theorem C37_check l : CheckPriceHistoryTimestamps l = true <-> ordered pr_timestamp_sec l.
  Proof.
    assert (K : forall r l, CheckPriceHistoryTimestamps (r :: l) = true <->
              (forall y, In y l -> (pr_timestamp_sec r <= pr_timestamp_sec y)%Z) /\ ordered pr_timestamp_sec l).
    { clear. intros r l. revert r. induction l as [|r' l IH]; intros r.
      - cbn. split; [|reflexivity]. intros _. split; [intros y []|]. intros i j x y Hx. destruct i; discriminate.
      - change (CheckPriceHistoryTimestamps (r :: r' :: l)) with
          (if (pr_timestamp_sec r' <? pr_timestamp_sec r)%Z then false else CheckPriceHistoryTimestamps (r' :: l)).
        destruct (Z.ltb_spec (pr_timestamp_sec r') (pr_timestamp_sec r)) as [H|H].
        + split; [discriminate|]. intros [H1 _]. specialize (H1 r' (or_introl eq_refl)). lia.
        + rewrite IH. split.
          * intros [H1 H2]. split.
            -- intros y [<-|Hy]; [exact H|]. specialize (H1 y Hy). lia.
            -- intros i j x y Hx Hy Hij. destruct j as [|j]; [lia|]. destruct i as [|i]; cbn in Hx, Hy.
               ++ injection Hx as <-. apply H1. eapply nth_error_In; eauto.
               ++ apply (H2 i j); auto. lia.
          * intros [H1 H2]. split.
            -- intros y Hy. apply In_nth_error in Hy as [k Hk]. apply (H2 0%nat (S k)); auto. lia.
            -- intros i j x y Hx Hy Hij. apply (H2 (S i) (S j)); auto. lia. }
    destruct l as [|r l].
    - split; [|reflexivity]. intros _ i j x y Hx. destruct i; discriminate.
    - rewrite K. split.
      + intros [H1 H2] i j x y Hx Hy Hij. destruct j as [|j]; [lia|]. destruct i as [|i]; cbn in Hx, Hy.
        * injection Hx as <-. apply H1. eapply nth_error_In; eauto.
        * apply (H2 i j); auto. lia.
      + intros H. split.
        * intros y Hy. apply In_nth_error in Hy as [k Hk]. apply (H 0%nat (S k)); auto. lia.
        * intros i j x y Hx Hy Hij. apply (H (S i) (S j)); auto. lia.
  Qed.
End AnyMachine.

(** ** C33 Resampled ticks are well-formed: for every machine whose comparisons order its
    numbers like the reals (both machines do). *)
Section Ordered.
  Context {M : machine} (O : real_order M).

  (** A price that is a positive number, a volume that is a non-negative number. *)
  Definition sound_record (r : price_record) : Prop :=
    fltb (fofZ 0) (pr_price r) = true /\ fleb (fofZ 0) (pr_volume r) = true.

  Lemma sound_tick r : sound_record r -> valid_tick (price_tick r).
  Proof.
    intros [H1 H2]. destruct (ltb_num M O _ _ H1) as [_ Hn]. unfold valid_tick. cbn.
    assert (fleb (pr_price r) (pr_price r) = true) by (apply (leb_spec O); auto; apply Rle_refl). auto 10.
  Qed.

  Theorem resample_wellformed p l :
    (0 < p)%Z -> ordered pr_timestamp_sec l -> (forall r, In r l -> sound_record r) ->
    exists out, Resample l p = Done out /\ (forall t, In t out -> valid_tick t) /\
      (forall r, In r l -> exists t, In t out /\ timestamp_sec t = bucket p (pr_timestamp_sec r) /\
         fleb (low t) (pr_price r) = true /\ fleb (pr_price r) (high t) = true).
  Proof.
    intros Hp Ho Hv. exists (series p (map price_tick l)). split; [apply Resample_series; auto|].
    assert (Ho' : ordered timestamp_sec (map price_tick l)) by (apply ordered_map; exact Ho).
    assert (Hv' : forall u, In u (map price_tick l) -> valid_tick u).
    { intros u Hu. apply in_map_iff in Hu as (r & <- & Hr). apply sound_tick. apply Hv. exact Hr. }
    split; [apply (series_valid O p Hp); auto|].
    intros r Hr. exists (period_tick p (map price_tick l) (bucket_of p (price_tick r))).
    assert (Hin : In (price_tick r) (map price_tick l)) by (apply in_map; exact Hr).
    split; [|split].
    - apply in_map. apply bucket_in_grid; auto.
    - rewrite period_tick_ts. reflexivity.
    - destruct (period_extremes O p (map price_tick l) (price_tick r) Hv' Hin) as (H1 & H2 & _). auto.
  Qed.

  (** ** C38 The conversion pipeline. *)
  Theorem convert_pipeline dev last_n p ms start end_ h :
    ReadPriceHistoryFromProto ms start end_ = Some h ->
    (0 < p)%Z -> (forall r, hd_error h = Some r -> (p <= pr_timestamp_sec r)%Z) ->
    (Z.of_nat (length h) < 2 ^ 63)%Z ->
    exists ohlc, ConvertPriceHistoryToOhlcHistory dev last_n p h = Done ohlc /\
      ReadOhlcHistoryFromProto ohlc 0 0 = Some ohlc /\
      exists mask, right_mask dev h mask /\ ohlc = series p (map price_tick (select mask h)).
  Proof.
    intros Hr Hp Hfirst Hlen.
    apply (read_history_spec pr_timestamp_sec _ price_ok) in Hr; [|apply price_valid_iff]. destruct Hr as [_ Hr].
    destruct (convert_accepted O p Hp dev last_n h Hr) as (ohlc & H1 & H2 & H3); eauto.
    intros r Hin. destruct h as [|r0 h]; [destruct Hin|]. specialize (Hfirst r0 eq_refl).
    destruct Hin as [<-|Hin]; [exact Hfirst|]. apply In_nth_error in Hin as [k Hk].
    assert (pr_timestamp_sec r0 <= pr_timestamp_sec r)%Z; [|lia].
    apply (proj1 Hr 0%nat (S k)); auto. lia.
  Qed.
End Ordered.

Theorem C33_wellformed_ieee lm as_ p (l : list (@price_record (ieee lm as_))) :
  (0 < p)%Z -> ordered pr_timestamp_sec l -> (forall r, In r l -> sound_record r) ->
  exists out, Resample l p = Done out /\ (forall t, In t out -> valid_tick t) /\
    (forall r, In r l -> exists t, In t out /\ timestamp_sec t = bucket p (pr_timestamp_sec r) /\
       fleb (low t) (pr_price r) = true /\ fleb (pr_price r) (high t) = true).
Proof. apply resample_wellformed. apply ieee_order. Qed.

Theorem C33_wellformed_exact sh as_ p (l : list (@price_record (exact sh as_))) :
  (0 < p)%Z -> ordered pr_timestamp_sec l -> (forall r, In r l -> sound_record r) ->
  exists out, Resample l p = Done out /\ (forall t, In t out -> valid_tick t) /\
    (forall r, In r l -> exists t, In t out /\ timestamp_sec t = bucket p (pr_timestamp_sec r) /\
       fleb (low t) (pr_price r) = true /\ fleb (pr_price r) (high t) = true).
Proof. apply resample_wellformed. apply exact_order. Qed.

(** Any float prices the reader lets through, including NaN and infinities. *)
Theorem C38_pipeline_ieee lm as_ dev last_n p (ms : list (@price_record (ieee lm as_))) start end_ h :
  ReadPriceHistoryFromProto ms start end_ = Some h ->
  (0 < p)%Z -> (forall r, hd_error h = Some r -> (p <= pr_timestamp_sec r)%Z) ->
  (Z.of_nat (length h) < 2 ^ 63)%Z ->
  exists ohlc, ConvertPriceHistoryToOhlcHistory dev last_n p h = Done ohlc /\
    ReadOhlcHistoryFromProto ohlc 0 0 = Some ohlc /\
    exists mask, right_mask dev h mask /\ ohlc = series p (map price_tick (select mask h)).
Proof. apply convert_pipeline. apply ieee_order. Qed.

(** ** The hypotheses are met: five records with a spike (third) and a malformed one (fourth). *)
Section Examples.
  Context {lm : libm} {as_ : bool}.
  Local Notation I := (ieee lm as_).
  Definition h_rec (t p v : Z) : @price_record I := @PriceRecord I t (f32_of_Z p) (f32_of_Z v).
  Definition h_hist : list (@price_record I) :=
    [h_rec 65 10 1; h_rec 70 12 2; h_rec 130 1000 1; h_rec 131 12 (-1); h_rec 310 13 4].
  Definition h_good : list (@price_record I) := [h_rec 65 10 1; h_rec 70 12 2; h_rec 130 1000 1; h_rec 310 13 4].
  Definition h_dev : @flt I := f32_of_Z 1.
End Examples.

Section ExampleProofs.
  Context (lm : libm) (as_ : bool).
  Local Notation I := (ieee lm as_).

  Lemma h_good_ordered : ordered pr_timestamp_sec (@h_good lm as_).
  Proof. apply C37_check. reflexivity. Qed.

  Lemma history_hypotheses_met :
    ordered pr_timestamp_sec (@h_good lm as_) /\ (forall r, In r (@h_good lm as_) -> sound_record r) /\
    option_map (@length _) (ReadPriceHistoryFromProto (@h_good lm as_) 0 0) = Some 4%nat /\
    map pr_timestamp_sec (fst (RemoveOutliers (@h_hist lm as_) h_dev None)) = [65; 70; 310]%Z /\
    snd (RemoveOutliers (@h_hist lm as_) h_dev (Some [])) = Some [2; 3]%Z /\
    omap (map timestamp_sec) (Resample (@h_good lm as_) 60) = Done [60; 120; 180; 240; 300]%Z /\
    GetPriceHistoryGaps (@h_good lm as_) 10 400 2 = [(130, 310); (310, 400)]%Z /\
    GetOutlierIndicesWithContext [3; 9]%Z 11 1 2 1 = [(8, false); (9, true); (10, false)]%Z.
  Proof.
    split; [apply h_good_ordered|]. split.
    - intros r Hr. repeat (destruct Hr as [<-|Hr]; [split; clear; destruct as_; vm_compute; reflexivity|]). destruct Hr.
    - clear. destruct as_; repeat (split; [vm_compute; reflexivity|]); vm_compute; reflexivity.
  Qed.
End ExampleProofs.

Print Assumptions C30_subset.
Print Assumptions C31_resample.
Print Assumptions C33_wellformed_ieee.
Print Assumptions C34_partition.
Print Assumptions C36_context.
Print Assumptions C37_gaps.
Print Assumptions C38_pipeline_ieee.
