(** History subsets. *)
From Coq Require Import ZArith Bool List Lia.
From Verif.Model Require Import Outcome Machine Types Search History.
From Verif.Spec Require Import SeriesSpec HistorySpec.
From Verif.Proofs Require Import Base SearchProofs SeriesProofs.
Import ListNotations.
Local Open Scope Z_scope.

Section Subset.
  Context {T : Type} (ts : T -> Z).

  Lemma nth_skipn (l : list T) b i : nth_error (skipn b l) i = nth_error l (b + i).
  Proof. revert b. induction l as [|a l IH]; intros [|b]; try reflexivity; [destruct i; reflexivity|apply IH]. Qed.

  Lemma split_filter (l : list T) (f : T -> bool) (k : nat) :
    (k <= length l)%nat ->
    (forall i x, nth_error l i = Some x -> (i < k)%nat -> f x = true) ->
    (forall i x, nth_error l i = Some x -> (k <= i)%nat -> f x = false) ->
    firstn k l = filter f l /\ skipn k l = filter (fun x => negb (f x)) l.
  Proof.
    revert k. induction l as [|a l IH]; intros k Hk H1 H2.
    - destruct k; split; reflexivity.
    - destruct k as [|k].
      + destruct (IH 0%nat) as [I1 I2]; [lia|intros; lia|intros i x Hi _; apply (H2 (S i) x); auto; lia|].
        cbn [firstn skipn filter] in *. rewrite (H2 0%nat a eq_refl) by lia. cbn [negb].
        split; [exact I1|]. f_equal. rewrite <- I2. destruct l; reflexivity.
      + cbn [length] in Hk. destruct (IH k) as [I1 I2]; [lia| | |].
        * intros i x Hi Hik. apply (H1 (S i) x); auto. lia.
        * intros i x Hi Hik. apply (H2 (S i) x); auto. lia.
        * cbn [firstn skipn filter]. rewrite (H1 0%nat a eq_refl) by lia. cbn [negb]. rewrite I1, I2. auto.
  Qed.

  Lemma lower_bound_spec l t :
    ordered ts l ->
    (lower_bound ts l t <= length l)%nat /\
    (forall i x, nth_error l i = Some x -> (i < lower_bound ts l t)%nat -> ts x < t) /\
    (forall i x, nth_error l i = Some x -> (lower_bound ts l t <= i)%nat -> t <= ts x).
  Proof.
    intros Ho. unfold lower_bound.
    set (go := fun i => match nth_error l i with Some r => (ts r <? t) | None => false end).
    destruct (search_spec go 0 (length l)) as (H1 & H2 & H3).
    { intros i j Hi Hij Hj. unfold go. destruct (nth_error l j) as [y|] eqn:Ey; [|discriminate].
      destruct (nth_error l i) as [x|] eqn:Ex; [|apply nth_error_None in Ex; lia].
      intros H. apply Z.ltb_lt in H. apply Z.ltb_lt.
      destruct (Nat.eq_dec i j) as [->|Hne]; [congruence|].
      assert (ts x <= ts y) by (apply (Ho i j); auto; lia). lia. }
    split; [lia|]. split.
    - intros i x Hi Hlt. specialize (H2 i ltac:(lia)). unfold go in H2. rewrite Hi in H2. apply Z.ltb_lt in H2. exact H2.
    - intros i x Hi Hle. assert (i < length l)%nat by (apply nth_error_Some; congruence).
      specialize (H3 i ltac:(lia)). unfold go in H3. rewrite Hi in H3. apply Z.ltb_ge in H3. exact H3.
  Qed.

  Lemma lower_bound_range l t : (lower_bound ts l t <= length l)%nat.
  Proof. unfold lower_bound. pose proof (search_range (fun i => match nth_error l i with Some r => (ts r <? t) | None => false end) 0 (length l)). lia. Qed.

  Lemma lower_bound_mono l t1 t2 : ordered ts l -> t1 <= t2 -> (lower_bound ts l t1 <= lower_bound ts l t2)%nat.
  Proof.
    intros Ho Ht. destruct (lower_bound_spec l t1 Ho) as (A1 & A2 & A3).
    destruct (lower_bound_spec l t2 Ho) as (B1 & B2 & B3).
    destruct (le_lt_dec (lower_bound ts l t1) (lower_bound ts l t2)) as [H|H]; [exact H|].
    destruct (nth_error l (lower_bound ts l t2)) as [x|] eqn:E; [|apply nth_error_None in E; lia].
    specialize (A2 _ _ E H). specialize (B3 _ _ E ltac:(lia)). lia.
  Qed.

  Definition first_bound l s := if (s >? 0) then lower_bound ts l s else 0%nat.
  Definition last_bound l e := if (e >? 0) then lower_bound ts l e else length l.

  Theorem subset_spec l start end_ :
    ordered ts l -> (start <= end_ \/ start <= 0 \/ end_ <= 0) ->
    let (b, e) := HistorySubset ts l start end_ in
    (b <= e <= length l)%nat /\ range l b e = filter (fun x => in_interval start end_ (ts x)) l.
  Proof.
    intros Ho Hse. unfold HistorySubset. fold (first_bound l start). fold (last_bound l end_).
    assert (B1 : (forall i x, nth_error l i = Some x -> (i < first_bound l start)%nat -> (start <=? 0) || (start <=? ts x) = false) /\
                 (forall i x, nth_error l i = Some x -> (first_bound l start <= i)%nat -> (start <=? 0) || (start <=? ts x) = true)).
    { unfold first_bound. rewrite Z.gtb_ltb. destruct (Z.ltb_spec 0 start) as [H|H].
      - destruct (lower_bound_spec l start Ho) as (A1 & A2 & A3). rewrite (proj2 (Z.leb_gt start 0)) by lia. cbn [orb]. split.
        + intros i x Hi Hl. apply Z.leb_gt. eauto.
        + intros i x Hi Hl. apply Z.leb_le. eauto.
      - split; [intros; lia|]. intros. rewrite (proj2 (Z.leb_le start 0)) by lia. reflexivity. }
    assert (B2 : (last_bound l end_ <= length l)%nat /\
                 (forall i x, nth_error l i = Some x -> (i < last_bound l end_)%nat -> (end_ <=? 0) || (ts x <? end_) = true) /\
                 (forall i x, nth_error l i = Some x -> (last_bound l end_ <= i)%nat -> (end_ <=? 0) || (ts x <? end_) = false)).
    { unfold last_bound. rewrite Z.gtb_ltb. destruct (Z.ltb_spec 0 end_) as [H|H].
      - destruct (lower_bound_spec l end_ Ho) as (A1 & A2 & A3). rewrite (proj2 (Z.leb_gt end_ 0)) by lia. cbn [orb]. split; [exact A1|]. split.
        + intros i x Hi Hl. apply Z.ltb_lt. eauto.
        + intros i x Hi Hl. apply Z.ltb_ge. eauto.
      - split; [lia|]. split; [intros; rewrite (proj2 (Z.leb_le end_ 0)) by lia; reflexivity|].
        intros i x Hi Hl. assert (i < length l)%nat by (apply nth_error_Some; congruence). lia. }
    destruct B1 as [P1 P2]. destruct B2 as (P3 & P4 & P5).
    assert (Hbe : (first_bound l start <= last_bound l end_)%nat).
    { unfold first_bound, last_bound. rewrite !Z.gtb_ltb.
      destruct (Z.ltb_spec 0 start), (Z.ltb_spec 0 end_); try lia; [|apply lower_bound_range].
      apply lower_bound_mono; auto. lia. }
    split; [lia|].
    unfold range. set (b := first_bound l start) in *. set (e := last_bound l end_) in *.
    destruct (split_filter l (fun x => negb ((start <=? 0) || (start <=? ts x))) b) as [_ S1]; [lia| | |].
    { intros i x Hi Hl. rewrite (P1 i x Hi Hl). reflexivity. }
    { intros i x Hi Hl. rewrite (P2 i x Hi Hl). reflexivity. }
    rewrite S1.
    assert (S1' : skipn b l = filter (fun x => (start <=? 0) || (start <=? ts x)) l).
    { rewrite S1. apply filter_ext. intros. apply negb_involutive. }
    rewrite <- S1.
    destruct (split_filter (skipn b l) (fun x => (end_ <=? 0) || (ts x <? end_)) (e - b)) as [S2 _].
    { rewrite skipn_length. lia. }
    { intros i x Hi Hl. 
      assert (Hi' : nth_error l (b + i) = Some x).
      { rewrite <- Hi. symmetry. apply nth_skipn. }
      apply (P4 (b + i)%nat); auto. lia. }
    { intros i x Hi Hl.
      assert (Hi' : nth_error l (b + i) = Some x).
      { rewrite <- Hi. symmetry. apply nth_skipn. }
      apply (P5 (b + i)%nat); auto. lia. }
    rewrite S2, S1'. clear. unfold in_interval.
    induction l as [|x l IH]; [reflexivity|]. cbn [filter].
    destruct ((start <=? 0) || (start <=? ts x)); cbn [filter andb]; [|exact IH].
    destruct ((end_ <=? 0) || (ts x <? end_)); rewrite IH; reflexivity.
  Qed.
End Subset.
