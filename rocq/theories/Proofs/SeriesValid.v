(** Periodic ticks of well-formed updates are well-formed. *)
From Coq Require Import Reals ZArith Bool List Lia Lra.
From Verif.Model Require Import Outcome Machine Types History Indicators.
From Verif.Spec Require Import SeriesSpec.
From Verif.Proofs Require Import Base SeriesProofs OrderLaws.
Import ListNotations.

Section Valid.
  Context {M : machine} (O : real_order M).
  Context (p : Z) (Hp : (0 < p)%Z).
  Notation num := (num O). Notation val := (val O).

  (** valid_tick in terms of the real values. *)
  Definition valid_val (t : ohlc_tick) : Prop :=
    num (open t) = true /\ num (high t) = true /\ num (low t) = true /\ num (close t) = true /\
    num (volume t) = true /\
    (0 < val (low t) /\ val (low t) <= val (open t) /\ val (low t) <= val (close t) /\
     val (open t) <= val (high t) /\ val (close t) <= val (high t) /\ 0 <= val (volume t))%R.

  Lemma valid_iff t : valid_tick t <-> valid_val t.
  Proof.
    destruct (val_0 M O) as [N0 V0]. unfold valid_tick, valid_val. split.
    - intros (H1 & H2 & H3 & H4 & H5 & H6).
      destruct (ltb_num M O _ _ H1), (leb_num M O _ _ H2), (leb_num M O _ _ H3), (leb_num M O _ _ H4), (leb_num M O _ _ H6).
      apply (ltb_spec O) in H1; auto. apply (leb_spec O) in H2, H3, H4, H5, H6; auto. rewrite V0 in *. tauto.
    - intros (A1 & A2 & A3 & A4 & A5 & B1 & B2 & B3 & B4 & B5 & B6).
      rewrite (ltb_spec O), !(leb_spec O), V0 by auto. tauto.
  Qed.

  Lemma in_grid us b : ordered timestamp_sec us -> In b (grid p us) ->
    exists u rest, us = u :: rest /\ (bucket_of p u <= b)%Z /\ (b <= bucket_of p (last us u))%Z.
  Proof.
    intros Ho Hb. destruct us as [|u us]; [destruct Hb|]. exists u, us. split; [reflexivity|].
    unfold grid in Hb. apply in_map_iff in Hb as (i & <- & Hi). apply in_seq in Hi.
    set (bn := bucket_of p (last (u :: us) u)) in *. set (b0 := bucket_of p u) in *.
    assert (Hle : (b0 <= bn)%Z).
    { unfold b0, bn. destruct (list_snoc (u :: us)) as [E|(l & y & E)]; [discriminate|].
      rewrite E in Ho |- *. rewrite last_snoc. apply (ordered_bucket p Hp l); auto. rewrite <- E. left. reflexivity. }
    assert (Hd : (p * ((bn - b0) / p) <= bn - b0)%Z) by (apply Z.mul_div_le; lia).
    assert (Hq : (0 <= (bn - b0) / p)%Z) by (apply Z.div_pos; lia).
    split; [nia|]. assert (Z.of_nat i <= (bn - b0) / p)%Z by lia. nia.
  Qed.

  Lemma filter_first_nonempty {A} (f : A -> bool) l x : In x l -> f x = true -> filter f l <> [].
  Proof. intros H1 H2 E. assert (In x (filter f l)) by (apply filter_In; auto). rewrite E in H. destruct H. Qed.

  Theorem period_valid us b :
    ordered timestamp_sec us -> (forall u, In u us -> valid_tick u) -> In b (grid p us) ->
    valid_tick (period_tick p us b).
  Proof.
    intros Ho Hv Hb. destruct (in_grid us b Ho Hb) as (u0 & rest0 & E & Hle & _).
    unfold period_tick. destruct (in_period p us b) as [|u rest] eqn:Ep.
    - destruct (rev (before_period p us b)) as [|x l] eqn:Eb.
      + exfalso. assert (bucket_of p u0 <> b).
        { intros H. apply (filter_first_nonempty (fun u => (bucket_of p u =? b)%Z) us u0); [subst; left; reflexivity| |exact Ep].
          apply Z.eqb_eq. exact H. }
        apply (filter_first_nonempty (fun u => (bucket_of p u <? b)%Z) us u0); [subst; left; reflexivity|apply Z.ltb_lt; lia|].
        apply (f_equal (@rev _)) in Eb. rewrite rev_involutive in Eb. exact Eb.
      + assert (Hx : In x us).
        { assert (In x (rev (before_period p us b))) by (rewrite Eb; left; reflexivity).
          apply in_rev in H. apply filter_In in H. apply H. }
        apply Hv in Hx. apply valid_iff in Hx. apply valid_iff.
        destruct Hx as (A1 & A2 & A3 & A4 & A5 & B1 & B2 & B3 & B4 & B5 & B6). destruct (val_0 M O) as [N0 V0].
        unfold valid_val, flat_at. cbn. rewrite V0. repeat split; auto; lra.
    - assert (Hin : forall y, In y (u :: rest) -> valid_val y).
      { intros y Hy. rewrite <- Ep in Hy. apply filter_In in Hy as [Hy _]. apply valid_iff. auto. }
      assert (Hu := Hin u (or_introl eq_refl)).
      destruct Hu as (A1 & A2 & A3 & A4 & A5 & B1 & B2 & B3 & B4 & B5 & B6).
      destruct (fold_fmax O (map high rest) (high u) A2) as (X1 & _ & X3).
      { intros y Hy. apply in_map_iff in Hy as (z & <- & Hz). apply Hin. right. exact Hz. }
      destruct (fold_fmin O (map low rest) (low u) A3) as (Y1 & Y2 & Y3).
      { intros y Hy. apply in_map_iff in Hy as (z & <- & Hz). apply Hin. right. exact Hz. }
      destruct (fold_fadd_nonneg O (map volume rest) (volume u) A5 B6) as (Z1 & Z2).
      { intros y Hy. apply in_map_iff in Hy as (z & <- & Hz). destruct (Hin z (or_intror Hz)) as (? & ? & ? & ? & ? & ? & ? & ? & ? & ? & ?). auto. }
      assert (Hl : In (last rest u) (u :: rest)).
      { destruct (list_snoc rest) as [->|(l & x & ->)]; [left; reflexivity|]. rewrite last_snoc.
        right. apply in_or_app. right. left. reflexivity. }
      assert (Hlow : In (fold_left fmin (map low rest) (low u)) (map low (u :: rest))) by exact Y2.
      apply in_map_iff in Hlow as (z & Ez & Hz). destruct (Hin z Hz) as (_ & _ & _ & _ & _ & C1 & _).
      apply valid_iff. unfold valid_val. cbn [open high low close volume].
      assert (HL := Hin _ Hl). destruct HL as (D1 & D2 & D3 & D4 & D5 & E1 & E2 & E3 & E4 & E5 & E6).
      assert (Xu := X3 (high u) (or_introl eq_refl)). assert (Yu := Y3 (low u) (or_introl eq_refl)).
      assert (XL := X3 (high (last rest u)) (in_map high _ _ Hl)).
      assert (YL := Y3 (low (last rest u)) (in_map low _ _ Hl)).
      rewrite <- Ez in *. repeat split; auto; lra.
  Qed.

  Theorem series_valid us :
    ordered timestamp_sec us -> (forall u, In u us -> valid_tick u) ->
    forall t, In t (series p us) -> valid_tick t.
  Proof.
    intros Ho Hv t Ht. apply in_map_iff in Ht as (b & <- & Hb). apply period_valid; auto.
  Qed.

  (** Every update lies inside the range of its period's tick, and the extremes are attained. *)
  Theorem period_extremes us u :
    (forall u, In u us -> valid_tick u) -> In u us ->
    let t := period_tick p us (bucket_of p u) in
    fleb (low t) (low u) = true /\ fleb (high u) (high t) = true /\
    In (low t) (map low (in_period p us (bucket_of p u))) /\
    In (high t) (map high (in_period p us (bucket_of p u))).
  Proof.
    intros Hv Hu. cbv zeta. unfold period_tick.
    assert (Hin : In u (in_period p us (bucket_of p u))) by (apply filter_In; split; [exact Hu|apply Z.eqb_refl]).
    destruct (in_period p us (bucket_of p u)) as [|a rest] eqn:Ep; [destruct Hin|].
    assert (Hall : forall y, In y (a :: rest) -> valid_val y).
    { intros y Hy. rewrite <- Ep in Hy. apply filter_In in Hy as [Hy _]. apply valid_iff. auto. }
    destruct (Hall a (or_introl eq_refl)) as (A1 & A2 & A3 & A4 & A5 & _).
    destruct (fold_fmax O (map high rest) (high a) A2) as (X1 & X2 & X3).
    { intros y Hy. apply in_map_iff in Hy as (z & <- & Hz). apply Hall. right. exact Hz. }
    destruct (fold_fmin O (map low rest) (low a) A3) as (Y1 & Y2 & Y3).
    { intros y Hy. apply in_map_iff in Hy as (z & <- & Hz). apply Hall. right. exact Hz. }
    destruct (Hall u Hin) as (D1 & D2 & D3 & D4 & D5 & _).
    cbn [low high]. rewrite !(leb_spec O) by auto.
    split; [apply Y3; exact (in_map low _ _ Hin)|]. split; [apply X3; exact (in_map high _ _ Hin)|].
    split; [exact Y2|exact X2].
  Qed.

  (** The grid of the series. *)
  Theorem series_grid us : map timestamp_sec (series p us) = grid p us.
  Proof. unfold series. rewrite map_map. rewrite <- map_id. apply map_ext. intros. apply period_tick_ts. Qed.
End Valid.

Lemma bucket_in_grid {M : machine} p us u : (0 < p)%Z ->
  ordered timestamp_sec us -> In u us -> In (bucket_of p u) (grid p us).
Proof.
  intros Hp Ho Hu. destruct us as [|u0 us]; [destruct Hu|]. unfold grid.
  set (b0 := bucket_of p u0). set (bn := bucket_of p (last (u0 :: us) u0)).
  assert (H0 : (b0 <= bucket_of p u)%Z).
  { apply bucket_mono; [exact Hp|]. destruct Hu as [<-|Hu]; [lia|]. apply In_nth_error in Hu as [k Hk].
    apply (Ho 0%nat (S k)); auto. lia. }
  assert (Hn : (bucket_of p u <= bn)%Z).
  { unfold bn. destruct (list_snoc (u0 :: us)) as [E|(l & y & E)]; [discriminate|].
    rewrite E in *. rewrite last_snoc. apply (ordered_bucket p Hp l); auto. }
  apply in_map_iff. exists (Z.to_nat ((bucket_of p u - b0) / p)).
  assert (Hd : (p * ((bucket_of p u - b0) / p) = bucket_of p u - b0)%Z).
  { unfold b0, bucket_of, bucket. rewrite <- Z.mul_sub_distr_l, (Z.mul_comm p (_ - _)), Z.div_mul by lia. lia. }
  assert (0 <= (bucket_of p u - b0) / p)%Z by (apply Z.div_pos; lia).
  assert ((bucket_of p u - b0) / p <= (bn - b0) / p)%Z by (apply Z.div_le_mono; lia).
  split; [lia|]. apply in_seq. lia.
Qed.
