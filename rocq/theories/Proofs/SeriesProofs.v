(** The aggregation of updates into periodic ticks, computed one update at a time. *)
From Coq Require Import ZArith Bool List Lia.
From Verif.Model Require Import Outcome Machine Types History Indicators.
From Verif.Spec Require Import SeriesSpec.
From Verif.Proofs Require Import Base.
Import ListNotations.
Local Open Scope Z_scope.

Lemma list_snoc {A} (l : list A) : l = [] \/ exists l' x, l = l' ++ [x].
Proof.
  destruct l as [|a l]; [left; reflexivity|right].
  exists (removelast (a :: l)), (last (a :: l) a). apply app_removelast_last. discriminate.
Qed.

Lemma last_snoc {A} (l : list A) x d : last (l ++ [x]) d = x.
Proof. induction l as [|a l IH]; [reflexivity|]. cbn. destruct (l ++ [x]) eqn:E; [destruct l; discriminate|]. exact IH. Qed.

Lemma ordered_snoc {T} (ts : T -> Z) l x :
  ordered ts (l ++ [x]) <-> ordered ts l /\ (forall y, In y l -> ts y <= ts x).
Proof.
  split.
  - intros H. split.
    + intros i j a b Ha Hb Hij. apply (H i j); auto; rewrite nth_error_app1; auto; apply nth_error_Some; congruence.
    + intros y Hy. apply In_nth_error in Hy as [i Hi].
      assert (i < length l)%nat by (apply nth_error_Some; congruence).
      apply (H i (length l)); [rewrite nth_error_app1; auto| |auto].
      rewrite nth_error_app2 by lia. rewrite Nat.sub_diag. reflexivity.
  - intros [H1 H2] i j a b Ha Hb Hij.
    assert (j < length (l ++ [x]))%nat by (apply nth_error_Some; congruence).
    rewrite app_length in H. cbn in H.
    rewrite nth_error_app1 in Ha by lia.
    destruct (Nat.eq_dec j (length l)) as [->|Hne].
    + rewrite nth_error_app2 in Hb by lia. rewrite Nat.sub_diag in Hb. injection Hb as <-.
      apply H2. apply nth_error_In in Ha. exact Ha.
    + rewrite nth_error_app1 in Hb by lia. apply (H1 i j); auto.
Qed.

Lemma ordered_map {T U} (ts : U -> Z) (f : T -> U) l :
  ordered ts (map f l) <-> ordered (fun x => ts (f x)) l.
Proof.
  split.
  - intros H i j x y Hx Hy Hij. apply (H i j (f x) (f y)); auto; rewrite nth_error_map.
    + rewrite Hx; reflexivity.
    + rewrite Hy; reflexivity.
  - intros H i j a b Ha Hb Hij. rewrite nth_error_map in Ha, Hb.
    destruct (nth_error l i) as [x|] eqn:E1; [|discriminate].
    destruct (nth_error l j) as [y|] eqn:E2; [|discriminate].
    injection Ha as <-. injection Hb as <-. apply (H i j); auto.
Qed.

Lemma bucket_mono p a b : 0 < p -> a <= b -> bucket p a <= bucket p b.
Proof. intros Hp H. unfold bucket. apply Z.mul_le_mono_nonneg_l; [lia|]. apply Z.quot_le_mono; lia. Qed.

Section Series.
  Context {M : machine}.
  Context (p : Z) (Hp : 0 < p).

  (** A new tick starting a period, and merging an update into the current tick. *)
  Definition new_tick (u : ohlc_tick) : ohlc_tick :=
    {| timestamp_sec := bucket_of p u; open := open u; high := high u; low := low u;
       close := close u; volume := volume u |}.

  Definition merge_tick (t u : ohlc_tick) : ohlc_tick :=
    {| timestamp_sec := timestamp_sec t; open := open t;
       high := fmax (high t) (high u); low := fmin (low t) (low u);
       close := close u; volume := fadd (volume t) (volume u) |}.

  (** k flat ticks after t. *)
  Fixpoint flats (k : nat) (t : ohlc_tick) : list ohlc_tick :=
    match k with
    | O => []
    | S k' => flat_tick t p :: flats k' (flat_tick t p)
    end.

  Definition gap (t u : ohlc_tick) : nat := Z.to_nat ((bucket_of p u - timestamp_sec t) / p - 1).

  (** Extending the series by one update. *)
  Definition extend (ser : list ohlc_tick) (u : ohlc_tick) : list ohlc_tick :=
    match rev ser with
    | [] => [new_tick u]
    | t :: older =>
      if timestamp_sec t <? bucket_of p u
      then ser ++ flats (gap t u) t ++ [new_tick u]
      else rev older ++ [merge_tick t u]
    end.

  Lemma flats_map k t :
    flats k t = map (fun i => flat_at (timestamp_sec t + Z.of_nat (S i) * p) (close t)) (seq 0 k).
  Proof.
    revert t. induction k as [|k IH]; intros t; [reflexivity|].
    cbn [flats seq map]. f_equal; [unfold flat_tick, flat_at; f_equal; lia|].
    rewrite IH, <- seq_shift, map_map. apply map_ext. intros i. cbn [timestamp_sec close flat_tick].
    f_equal. lia.
  Qed.

  Lemma bucket_multiple t : exists k, bucket p t = k * p.
  Proof. exists (Z.quot t p). unfold bucket. lia. Qed.

  Lemma filter_none {A} (f : A -> bool) l : (forall x, In x l -> f x = false) -> filter f l = [].
  Proof. induction l as [|a l IH]; cbn; intros H; [reflexivity|]. rewrite H by auto. apply IH. auto. Qed.

  Lemma filter_all {A} (f : A -> bool) l : (forall x, In x l -> f x = true) -> filter f l = l.
  Proof. induction l as [|a l IH]; cbn; intros H; [reflexivity|]. rewrite H by auto. f_equal. apply IH. auto. Qed.

  (** The tick of a period before the new update's period does not change. *)
  Lemma period_tick_old us u b : b < bucket_of p u -> period_tick p (us ++ [u]) b = period_tick p us b.
  Proof.
    intros H. unfold period_tick, in_period, before_period. rewrite !filter_app. cbn [filter].
    rewrite (proj2 (Z.eqb_neq (bucket_of p u) b)) by lia.
    rewrite (proj2 (Z.ltb_ge (bucket_of p u) b)) by lia. rewrite !app_nil_r. reflexivity.
  Qed.

  Lemma period_tick_ts us b : timestamp_sec (period_tick p us b) = b.
  Proof. unfold period_tick. destruct (in_period p us b); reflexivity. Qed.

  (** All updates before the period: the last one gives the price. *)
  Lemma period_tick_gap us u0 b :
    (forall x, In x (us ++ [u0]) -> bucket_of p x < b) ->
    period_tick p (us ++ [u0]) b = flat_at b (close u0).
  Proof.
    intros H. unfold period_tick, in_period, before_period.
    rewrite filter_none.
    - rewrite filter_all, rev_app_distr; [reflexivity|]. intros x Hx. apply Z.ltb_lt. auto.
    - intros x Hx. apply Z.eqb_neq. specialize (H x Hx). lia.
  Qed.

  Lemma period_tick_first us u :
    (forall x, In x us -> bucket_of p x < bucket_of p u) ->
    period_tick p (us ++ [u]) (bucket_of p u) = new_tick u.
  Proof.
    intros H. unfold period_tick, in_period. rewrite filter_app, filter_none.
    - cbn [filter]. rewrite Z.eqb_refl. reflexivity.
    - intros x Hx. apply Z.eqb_neq. specialize (H x Hx). lia.
  Qed.

  Lemma period_tick_merge us u0 u :
    bucket_of p u0 = bucket_of p u ->
    period_tick p ((us ++ [u0]) ++ [u]) (bucket_of p u)
    = merge_tick (period_tick p (us ++ [u0]) (bucket_of p u)) u.
  Proof.
    intros H. unfold period_tick, in_period.
    rewrite (filter_app _ (us ++ [u0])). cbn [filter]. rewrite Z.eqb_refl.
    assert (Hne : filter (fun x => bucket_of p x =? bucket_of p u) (us ++ [u0]) <> []).
    { rewrite filter_app. cbn [filter]. rewrite H, Z.eqb_refl. destruct (filter _ us); discriminate. }
    destruct (filter _ (us ++ [u0])) as [|a r]; [contradiction|].
    cbn [app]. unfold merge_tick. cbn [timestamp_sec open high low close volume].
    rewrite !map_app, !fold_left_app. cbn [map fold_left]. rewrite last_snoc. reflexivity.
  Qed.

  Lemma period_tick_close us u0 :
    close (period_tick p (us ++ [u0]) (bucket_of p u0)) = close u0.
  Proof.
    unfold period_tick, in_period. rewrite filter_app. cbn [filter]. rewrite Z.eqb_refl.
    destruct (filter _ us) as [|a r]; [reflexivity|]. cbn [app close]. rewrite last_snoc. reflexivity.
  Qed.

  (** The grid one update later. *)
  Definition steps (a b : Z) : nat := S (Z.to_nat ((b - a) / p)).
  Definition line (a : Z) (n : nat) : list Z := map (fun i => a + Z.of_nat i * p) (seq 0 n).

  Lemma line_app a m n : line a (m + n) = line a m ++ line (a + Z.of_nat m * p) n.
  Proof.
    unfold line. rewrite seq_app, map_app. f_equal. cbn [plus].
    replace (seq m n) with (map (fun i => (m + i)%nat) (seq 0 n)).
    - rewrite map_map. apply map_ext. intros i. lia.
    - clear. induction m as [|m IH]; [rewrite map_id; reflexivity|].
      rewrite <- seq_shift, <- IH, map_map. reflexivity.
  Qed.

  Lemma line_S a n : line a (S n) = line a n ++ [a + Z.of_nat n * p].
  Proof. replace (S n) with (n + 1)%nat by lia. rewrite line_app. unfold line. cbn. rewrite Z.add_0_r. reflexivity. Qed.

  Lemma in_line a n b : In b (line a n) <-> exists i, (i < n)%nat /\ b = a + Z.of_nat i * p.
  Proof.
    unfold line. rewrite in_map_iff. split.
    - intros (i & <- & H). apply in_seq in H. exists i. split; [lia|reflexivity].
    - intros (i & H & ->). exists i. split; [reflexivity|]. apply in_seq. lia.
  Qed.

  Lemma grid_snoc us0 u0 : grid p (us0 ++ [u0]) =
    let b0 := bucket_of p (hd u0 us0) in line b0 (steps b0 (bucket_of p u0)).
  Proof.
    unfold grid, line, steps. destruct us0 as [|a us0]; [reflexivity|].
    cbn [app hd]. rewrite app_comm_cons, last_snoc. reflexivity.
  Qed.

  Lemma ordered_bucket us x y : ordered timestamp_sec (us ++ [y]) -> In x (us ++ [y]) -> bucket_of p x <= bucket_of p y.
  Proof.
    intros H Hx. apply ordered_snoc in H as [_ H]. apply in_app_or in Hx as [Hx|[<-|[]]]; [|lia].
    apply bucket_mono; auto.
  Qed.

  Lemma series_last us u0 :
    ordered timestamp_sec (us ++ [u0]) ->
    exists older, series p (us ++ [u0]) = older ++ [period_tick p (us ++ [u0]) (bucket_of p u0)] /\
                  forall t, In t older -> timestamp_sec t < bucket_of p u0.
  Proof.
    intros Ho. unfold series. rewrite grid_snoc. cbv zeta.
    set (b0 := bucket_of p (hd u0 us)).
    assert (Hb : exists k, bucket_of p u0 = b0 + Z.of_nat k * p).
    { destruct (bucket_multiple (timestamp_sec u0)) as [k1 E1].
      destruct (bucket_multiple (timestamp_sec (hd u0 us))) as [k0 E0].
      exists (Z.to_nat (k1 - k0)). unfold b0, bucket_of. rewrite E1, E0.
      assert (k0 <= k1); [|nia].
      assert (bucket_of p (hd u0 us) <= bucket_of p u0).
      { apply (ordered_bucket us); auto. destruct us; cbn; auto. }
      unfold bucket_of in H. rewrite E1, E0 in H. nia. }
    destruct Hb as [k Hk]. unfold steps. rewrite Hk.
    replace ((b0 + Z.of_nat k * p - b0) / p) with (Z.of_nat k)
      by (replace (b0 + Z.of_nat k * p - b0) with (Z.of_nat k * p) by lia; rewrite Z.div_mul; lia).
    rewrite Nat2Z.id, line_S, map_app. eexists. split; [reflexivity|].
    intros t Ht. apply in_map_iff in Ht as (b & <- & Hb). apply in_line in Hb as (i & Hi & ->).
    rewrite period_tick_ts. nia.
  Qed.

  Theorem series_extend us u :
    ordered timestamp_sec (us ++ [u]) -> series p (us ++ [u]) = extend (series p us) u.
  Proof.
    intros Ho. pose proof Ho as Ho'. apply ordered_snoc in Ho' as [Ho1 Hle].
    destruct (list_snoc us) as [->|(us0 & u0 & ->)].
    - unfold series, grid, extend. cbn [app last rev map]. rewrite Z.sub_diag, Z.div_0_l by lia.
      cbn. rewrite Z.add_0_r. f_equal. apply (period_tick_first [] u). intros x [].
    - destruct (series_last us0 u0 Ho1) as (older & Es & Hold).
      unfold extend. rewrite Es, rev_app_distr. cbn [rev app]. rewrite rev_involutive.
      rewrite period_tick_ts.
      assert (Hb : bucket_of p u0 <= bucket_of p u).
      { apply bucket_mono; auto. apply Hle. apply in_or_app. right. left. reflexivity. }
      set (t := period_tick p (us0 ++ [u0]) (bucket_of p u0)) in *.
      assert (Ets : timestamp_sec t = bucket_of p u0) by apply period_tick_ts.
      assert (Ecl : close t = close u0) by apply period_tick_close.
      assert (Hhd : forall d, hd d (us0 ++ [u0]) = hd u0 us0) by (destruct us0; reflexivity).
      unfold series in Es. rewrite grid_snoc in Es. cbv zeta in Es.
      unfold series. rewrite grid_snoc. cbv zeta. rewrite Hhd.
      set (b0 := bucket_of p (hd u0 us0)) in *.
      destruct (bucket_multiple (timestamp_sec u0)) as [k1 E1].
      destruct (bucket_multiple (timestamp_sec u)) as [k2 E2].
      destruct (bucket_multiple (timestamp_sec (hd u0 us0))) as [k0 E0].
      fold (bucket_of p u0) in E1. fold (bucket_of p u) in E2. fold (bucket_of p (hd u0 us0)) in E0. fold b0 in E0.
      assert (Hk : k0 <= k1 <= k2).
      { assert (b0 <= bucket_of p u0).
        { unfold b0. apply (ordered_bucket us0); auto. destruct us0; cbn; auto. }
        rewrite E1, E0 in H. rewrite E1, E2 in Hb. nia. }
      assert (S1 : steps b0 (bucket_of p u0) = S (Z.to_nat (k1 - k0))).
      { unfold steps. rewrite E1, E0. replace (k1 * p - k0 * p) with ((k1 - k0) * p) by lia.
        rewrite Z.div_mul by lia. reflexivity. }
      assert (S2 : steps b0 (bucket_of p u) = S (Z.to_nat (k2 - k0))).
      { unfold steps. rewrite E2, E0. replace (k2 * p - k0 * p) with ((k2 - k0) * p) by lia.
        rewrite Z.div_mul by lia. reflexivity. }
      rewrite S1 in Es. rewrite S2.
      destruct (Z.ltb_spec (bucket_of p u0) (bucket_of p u)) as [Hlt|Hge].
      + assert (k1 < k2) by (rewrite E1, E2 in Hlt; nia).
        replace (S (Z.to_nat (k2 - k0))) with (S (Z.to_nat (k1 - k0)) + (gap t u + 1))%nat
          by (unfold gap; rewrite Ets, E1, E2; replace (k2 * p - k1 * p) with ((k2 - k1) * p) by lia;
              rewrite Z.div_mul by lia; lia).
        rewrite line_app, map_app. rewrite <- Es. f_equal.
        * apply map_ext_in. intros b Hin. apply in_line in Hin as (i & Hi & ->).
          apply period_tick_old. rewrite E0, E2. nia.
        * replace (b0 + Z.of_nat (S (Z.to_nat (k1 - k0))) * p) with (bucket_of p u0 + p)
            by (rewrite E0, E1, Nat2Z.inj_succ, Z2Nat.id by lia; lia).
          rewrite line_app, map_app. f_equal.
          -- rewrite flats_map, Ets, Ecl. unfold line. rewrite map_map. apply map_ext_in.
             intros i Hi. apply in_seq in Hi. unfold gap in Hi. rewrite Ets in Hi.
             assert (Z.of_nat i < k2 - k1 - 1).
             { rewrite E1, E2 in Hi. replace (k2 * p - k1 * p) with ((k2 - k1) * p) in Hi by lia.
               rewrite Z.div_mul in Hi by lia. lia. }
             rewrite period_tick_old by (rewrite E1, E2; nia).
             rewrite period_tick_gap.
             ++ f_equal. lia.
             ++ intros x Hx. pose proof (ordered_bucket us0 x u0 Ho1 Hx). lia.
          -- cbn. f_equal.
             replace (bucket_of p u0 + p + Z.of_nat (gap t u) * p + 0) with (bucket_of p u).
             ++ apply period_tick_first. intros x Hx. pose proof (ordered_bucket us0 x u0 Ho1 Hx). lia.
             ++ unfold gap. rewrite Ets, E1, E2. replace (k2 * p - k1 * p) with ((k2 - k1) * p) by lia.
                rewrite Z.div_mul by lia. rewrite Z2Nat.id by lia. lia.
      + assert (E : bucket_of p u0 = bucket_of p u) by lia.
        assert (k1 = k2) by (rewrite E1, E2 in E; nia). subst k2.
        rewrite line_S, map_app in Es |- *. cbn [map] in Es |- *.
        apply app_inj_tail in Es as [<- _]. f_equal.
        * apply map_ext_in. intros b Hin. apply in_line in Hin as (i & Hi & ->).
          apply period_tick_old. rewrite E0, E2. nia.
        * f_equal. replace (b0 + Z.of_nat (Z.to_nat (k1 - k0)) * p) with (bucket_of p u)
            by (rewrite E0, E2, Z2Nat.id by lia; lia).
          rewrite period_tick_merge by exact E. unfold t. rewrite E. reflexivity.
  Qed.
End Series.
