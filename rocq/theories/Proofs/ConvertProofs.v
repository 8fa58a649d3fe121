(** From an accepted price history to an accepted OHLC history. *)
From Coq Require Import Reals ZArith Bool List Lia Lra.
From Verif.Model Require Import Outcome Machine Types History Indicators Proto Convert.
From Verif.Spec Require Import SeriesSpec HistorySpec ReaderSpec.
From Verif.Proofs Require Import Base SeriesProofs LastNProofs OrderLaws SeriesValid OutlierProofs ReaderProofs VolTotal.
Import ListNotations.

Section Convert.
  Context {M : machine} (O : real_order M).
  Context (p : Z) (Hp : (0 < p)%Z).
  Notation num := (num O). Notation val := (val O).

  Lemma select_ordered {T} (ts : T -> Z) mask l : ordered ts l -> ordered ts (select mask l).
  Proof.
    revert l. induction mask as [|b mask IH]; intros [|a l] Ho; try (cbn; destruct b); try (intros i j x y Hx; destruct i; discriminate).
    - assert (Ho' : ordered ts l) by (intros i j x y Hx Hy Hij; apply (Ho (S i) (S j)); auto; lia).
      intros i j x y Hx Hy Hij. destruct j as [|j]; [lia|]. destruct i as [|i]; cbn in Hx, Hy.
      + injection Hx as <-. apply nth_error_In in Hy. apply select_nth in Hy as (k & _ & Hk).
        apply (Ho 0%nat (S k)); auto. lia.
      + apply (IH l Ho' i j); auto. lia.
    - apply IH. intros i j x y Hx Hy Hij. apply (Ho (S i) (S j)); auto. lia.
  Qed.

  Lemma select_in {T} mask (l : list T) x : In x (select mask l) -> In x l.
  Proof. intros H. apply select_nth in H as (i & _ & H). eapply nth_error_In; eauto. Qed.

  (** *** Periods of acceptable prices are acceptable ticks (prices may even be NaN). *)
  Lemma period_ok l b :
    ordered pr_timestamp_sec l -> (forall r, In r l -> price_ok r) -> In b (grid p (map price_tick l)) ->
    ohlc_ok (period_tick p (map price_tick l) b).
  Proof.
    intros Ho Hv Hb.
    assert (Ho' : ordered timestamp_sec (map price_tick l)) by (apply ordered_map; exact Ho).
    destruct (val_0 M O) as [N0 V0].
    assert (Hin : forall u, In u (map price_tick l) -> open u = close u /\ high u = close u /\ low u = close u /\
              fleb (close u) (fofZ 0) = false /\ fltb (volume u) (fofZ 0) = false).
    { intros u Hu. apply in_map_iff in Hu as (r & <- & Hr). destruct (Hv r Hr). cbn. auto. }
    set (us := map price_tick l) in *.
    destruct (in_grid p Hp us b Ho' Hb) as (u0 & rest0 & E & Hle & _).
    unfold period_tick. destruct (in_period p us b) as [|u rest] eqn:Ep.
    - destruct (rev (before_period p us b)) as [|x q] eqn:Eb.
      + exfalso. assert (bucket_of p u0 <> b).
        { intros H. apply (filter_first_nonempty (fun u => (bucket_of p u =? b)%Z) us u0); [rewrite E; left; reflexivity| |exact Ep].
          apply Z.eqb_eq. exact H. }
        apply (filter_first_nonempty (fun u => (bucket_of p u <? b)%Z) us u0); [rewrite E; left; reflexivity|apply Z.ltb_lt; lia|].
        apply (f_equal (@rev _)) in Eb. rewrite rev_involutive in Eb. exact Eb.
      + assert (Hx : In x us).
        { assert (In x (rev (before_period p us b))) by (rewrite Eb; left; reflexivity).
          apply in_rev in H. apply filter_In in H. apply H. }
        destruct (Hin x Hx) as (_ & _ & _ & H & _).
        unfold ohlc_ok, flat_at. cbn.
        assert (Hxx : fltb (close x) (close x) = false) by (apply (ltb_false O); intros; lra).
        assert (H00 : fltb (fofZ 0) (fofZ 0) = false) by (apply (ltb_false O); intros; lra).
        tauto.
    - assert (Hp' : forall y, In y (u :: rest) -> open y = close y /\ high y = close y /\ low y = close y /\
              fleb (close y) (fofZ 0) = false /\ fltb (volume y) (fofZ 0) = false).
      { intros y Hy. apply Hin. rewrite <- Ep in Hy. apply filter_In in Hy. apply Hy. }
      assert (Emap : map high rest = map close rest /\ map low rest = map close rest).
      { split; apply map_ext_in; intros y Hy; apply (Hp' y (or_intror Hy)). }
      destruct Emap as [-> ->]. destruct (Hp' u (or_introl eq_refl)) as (Eo & Eh & El & Pu & Vu).
      rewrite Eo, Eh, El.
      assert (Hlast : In (last rest u) (u :: rest)).
      { clear. destruct (list_snoc rest) as [->|(l & x & ->)]; [left; reflexivity|]. rewrite last_snoc. right. apply in_or_app. right. left. reflexivity. }
      assert (Hc : fleb (close (last rest u)) (fofZ 0) = false) by apply (Hp' _ Hlast).
      assert (Hvol : fltb (fold_left fadd (map volume rest) (volume u)) (fofZ 0) = false).
      { apply (fold_fadd_notneg O); [exact Vu|]. intros y Hy. apply in_map_iff in Hy as (z & <- & Hz). apply (Hp' z (or_intror Hz)). }
      destruct (num (close u)) eqn:Nu.
      2:{ rewrite (fold_fmax_nan O), (fold_fmin_nan O) by exact Nu.
          unfold ohlc_ok. cbn. rewrite !(ltb_nan O), !(leb_nan O) by auto. auto 15. }
      rewrite (fold_fmax_skip O), (fold_fmin_skip O) by exact Nu.
      set (cs := filter num (map close rest)).
      destruct (fold_fmax O cs (close u) Nu) as (X1 & X2 & X3); [intros y Hy; apply filter_In in Hy; apply Hy|].
      destruct (fold_fmin O cs (close u) Nu) as (Y1 & Y2 & Y3); [intros y Hy; apply filter_In in Hy; apply Hy|].
      set (hi := fold_left fmax cs (close u)) in *. set (lo := fold_left fmin cs (close u)) in *.
      assert (Hcs : forall y, In y (close u :: cs) -> num y = true /\ (0 < val y)%R).
      { intros y Hy. assert (num y = true) by (destruct Hy as [<-|Hy]; [exact Nu|apply filter_In in Hy; apply Hy]).
        split; [assumption|]. assert (fleb y (fofZ 0) = false).
        { destruct Hy as [<-|Hy]; [exact Pu|]. apply filter_In in Hy as [Hy _]. apply in_map_iff in Hy as (z & <- & Hz).
          apply (Hp' z (or_intror Hz)). }
        apply (leb_false O) in H0; auto. lra. }
      assert (Hcl : num (close (last rest u)) = true -> In (close (last rest u)) (close u :: cs)).
      { intros N. destruct Hlast as [<-|Hl]; [left; reflexivity|right]. apply filter_In. split; [|exact N]. apply in_map. exact Hl. }
      assert (Hu := Hcs _ (or_introl eq_refl)). destruct Hu as [_ Hu].
      pose proof (X3 _ (or_introl eq_refl)) as Xu. pose proof (Y3 _ (or_introl eq_refl)) as Yu.
      destruct (Hcs _ Y2) as [_ Plo].
      unfold ohlc_ok. cbn [open high low close volume].
      split; [exact Pu|]. split; [apply (leb_false O); intros; lra|]. split; [apply (leb_false O); intros; lra|].
      split; [exact Hc|]. split; [apply (ltb_false O); intros; lra|]. split; [apply (ltb_false O); intros; lra|].
      split; [apply (ltb_false O); intros; apply Y3; apply Hcl; assumption|].
      split; [apply (ltb_false O); intros; lra|].
      split; [apply (ltb_false O); intros; apply X3; apply Hcl; assumption|exact Hvol].
  Qed.

  Lemma grid_increasing us i j a b : nth_error (grid p us) i = Some a -> nth_error (grid p us) j = Some b ->
    (i < j)%nat -> (a < b)%Z.
  Proof.
    unfold grid. destruct us as [|u us]; [destruct i; discriminate|]. cbv zeta.
    set (n := S _). intros Ha Hb Hij. rewrite nth_error_map in Ha, Hb.
    destruct (nth_error (seq 0 n) i) as [x|] eqn:E1; [|discriminate].
    destruct (nth_error (seq 0 n) j) as [y|] eqn:E2; [|discriminate].
    cbn in Ha, Hb. injection Ha as <-. injection Hb as <-.
    assert (i < n)%nat by (rewrite <- (seq_length n 0); apply nth_error_Some; congruence).
    assert (j < n)%nat by (rewrite <- (seq_length n 0); apply nth_error_Some; congruence).
    apply (nth_error_nth _ _ 0%nat) in E1, E2. rewrite seq_nth in E1, E2 by lia. subst. nia.
  Qed.

  Lemma resampled_accepted l t0 :
    valid_history pr_timestamp_sec price_ok l ->
    (p <= t0)%Z -> (forall r, In r l -> (t0 <= pr_timestamp_sec r)%Z) ->
    ReadOhlcHistoryFromProto (series p (map price_tick l)) 0 0 = Some (series p (map price_tick l)).
  Proof.
    intros [Ho Hv] Hpt Ht.
    assert (Ho' : ordered timestamp_sec (map price_tick l)) by (apply ordered_map; exact Ho).
    assert (Hord : ordered timestamp_sec (series p (map price_tick l))).
    { intros i j x y Hx Hy Hij. apply (map_nth_error timestamp_sec) in Hx, Hy. rewrite (series_grid p) in Hx, Hy.
      pose proof (grid_increasing _ _ _ _ _ Hx Hy Hij). lia. }
    apply (read_history_spec timestamp_sec _ ohlc_ok); [apply ohlc_valid_iff|]. split.
    - rewrite in_range_interval by exact Hord. symmetry. unfold in_interval. cbn.
      clear. induction (series p (map price_tick l)) as [|x q IH]; [reflexivity|]. cbn. f_equal. exact IH.
    - split; [exact Hord|]. intros t Hin. apply in_map_iff in Hin as (b & <- & Hb). split.
      + rewrite period_tick_ts. destruct (in_grid p Hp _ b Ho' Hb) as (u & rest & E & Hle & _).
        destruct l as [|r l]; [discriminate|]. cbn [map] in E. injection E as <- _.
        unfold bucket_of in Hle. cbn in Hle. specialize (Ht r (or_introl eq_refl)).
        assert (bucket p p <= bucket p (pr_timestamp_sec r))%Z by (apply bucket_mono; lia).
        unfold bucket at 1 in H. rewrite Z.quot_same in H by lia. lia.
      + apply period_ok; auto. intros r Hr. apply Hv. exact Hr.
  Qed.

  Theorem convert_accepted dev last_n (h : list price_record) :
    valid_history pr_timestamp_sec price_ok h ->
    (forall r, In r h -> (p <= pr_timestamp_sec r)%Z) ->
    (Z.of_nat (length h) < 2 ^ 63)%Z ->
    exists ohlc, ConvertPriceHistoryToOhlcHistory dev last_n p h = Done ohlc /\
      ReadOhlcHistoryFromProto ohlc 0 0 = Some ohlc /\
      exists mask, right_mask dev h mask /\ ohlc = series p (map price_tick (select mask h)).
  Proof.
    intros Hv Ht Hlen. destruct (outliers_mask dev h) as (mask & Hm & HR).
    exists (series p (map price_tick (select mask h))).
    assert (Hsel : valid_history pr_timestamp_sec price_ok (select mask h)).
    { destruct Hv as [Ho Hv]. split; [apply select_ordered; exact Ho|]. intros r Hr. apply Hv. apply (select_in mask). exact Hr. }
    split; [|split].
    - unfold ConvertPriceHistoryToOhlcHistory. rewrite HR. cbn [app].
      assert (Hd : forall j, In j (dropped 0 mask) -> (0 <= j < Z.of_nat (length h) /\ j + 5 + 1 < 2 ^ 64)%Z).
      { intros j Hj. apply dropped_nth in Hj as [Hj0 Hj].
        assert (Z.to_nat (j - 0) < length mask)%nat by (apply nth_error_Some; congruence).
        rewrite (proj1 Hm) in H. lia. }
      destruct (context_spec (dropped 0 mask) (Z.of_nat (length h)) 5 5 (size_t_wrap last_n)) as [_ Hctx]; [lia|lia|lia| |exact Hd|].
      { unfold size_t_wrap. apply Z.mod_pos_bound. lia. }
      assert (Hall : forallb (fun kv => (fst kv <? Z.of_nat (length h))%Z)
                (GetOutlierIndicesWithContext (dropped 0 mask) (Z.of_nat (length h)) 5 5 (size_t_wrap last_n)) = true).
      { apply forallb_forall. intros [k b] Hk. apply Hctx in Hk as ((j & _ & Hn) & _). cbn. apply Z.ltb_lt. apply Hn. }
      rewrite Hall, assert_true. cbn [bind]. apply (Resample_series p Hp). apply Hsel.
    - destruct (select mask h) as [|r0 q] eqn:Es; [reflexivity|]. rewrite <- Es in *.
      apply (resampled_accepted _ p); [exact Hsel|lia|]. intros r Hr. apply Ht. apply (select_in mask). exact Hr.
    - exists mask. auto.
  Qed.
End Convert.
