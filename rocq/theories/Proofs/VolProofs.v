(** The volatility object: it follows the portfolio values of the periods. *)
From Coq Require Import Reals ZArith Bool List Lia Lra.
From Verif.Model Require Import Outcome Machine Types Indicators MachineR.
From Verif.Spec Require Import SeriesSpec IndicatorSpec.
From Verif.Proofs Require Import Base SeriesProofs LastNProofs HelperProofs MeanProofs IndicatorProofs.
Import ListNotations.
Local Open Scope Z_scope.

Section Values.
  Context {M : machine} (p : Z) (Hp : 0 < p).
  Notation bkt x := (bucket_of p (bu_tick x)).

  Lemma bkt_in xs x0 x : ordered timestamp_sec (map bu_tick (xs ++ [x0])) -> In x (xs ++ [x0]) -> bkt x <= bkt x0.
  Proof.
    rewrite map_app. cbn [map]. intros Ho Hx. apply (ordered_bucket p Hp (map bu_tick xs)); auto.
    change [bu_tick x0] with (map bu_tick [x0]). rewrite <- map_app. apply in_map. exact Hx.
  Qed.

  Lemma rev_filter_snoc (f : balance_update -> bool) xs x :
    rev (filter f (xs ++ [x])) = (if f x then [x] else []) ++ rev (filter f xs).
  Proof. rewrite filter_app, rev_app_distr. cbn [filter]. destruct (f x); reflexivity. Qed.

  (** Periods before the last update's are settled. *)
  Lemma value_old xs x0 x b : ordered timestamp_sec (map bu_tick (xs ++ [x0])) ->
    b <= bkt x0 -> b < bkt x -> value_at p ((xs ++ [x0]) ++ [x]) b = value_at p (xs ++ [x0]) b.
  Proof.
    intros Ho Hb Hx. unfold value_at.
    rewrite (rev_filter_snoc _ (xs ++ [x0]) x), (rev_filter_snoc _ (xs ++ [x0]) x).
    rewrite (proj2 (Z.eqb_neq (bkt x) b)), (proj2 (Z.ltb_ge (bkt x) b)) by lia. cbn [app].
    destruct (rev (filter (fun y => bkt y =? b) (xs ++ [x0]))) as [|y l] eqn:E; [|reflexivity].
    assert (b < bkt x0).
    { destruct (Z.eq_dec (bkt x0) b) as [Eb|]; [|lia]. rewrite rev_filter_snoc, (proj2 (Z.eqb_eq _ _) Eb) in E. discriminate. }
    destruct (rev (filter (fun y => bkt y <? b) (xs ++ [x0]))) as [|e er]; [reflexivity|].
    rewrite (filter_app _ (xs ++ [x0]) [x]).
    destruct (filter (fun y => b <? bkt y) (xs ++ [x0])) as [|y2 l2] eqn:F; [|reflexivity].
    exfalso. rewrite filter_app in F. cbn [filter] in F. rewrite (proj2 (Z.ltb_lt _ _) H) in F.
    destruct (filter _ xs); discriminate.
  Qed.

  (** A skipped period. *)
  Lemma value_gap xs x0 x b : ordered timestamp_sec (map bu_tick (xs ++ [x0])) ->
    bkt x0 < b -> b < bkt x -> value_at p ((xs ++ [x0]) ++ [x]) b = worth x (close (bu_tick x0)).
  Proof.
    intros Ho Hb Hx. unfold value_at. rewrite !rev_filter_snoc.
    rewrite (proj2 (Z.eqb_neq (bkt x) b)), (proj2 (Z.ltb_ge (bkt x) b)) by lia.
    rewrite (proj2 (Z.eqb_neq (bkt x0) b)), (proj2 (Z.ltb_lt (bkt x0) b)) by lia. cbn [app].
    rewrite (filter_none (fun y => bkt y =? b) xs).
    2:{ intros y Hy. apply Z.eqb_neq. pose proof (bkt_in xs x0 y Ho ltac:(apply in_or_app; auto)). lia. }
    cbn [rev]. rewrite filter_app, filter_none.
    2:{ intros y Hy. apply Z.ltb_ge. pose proof (bkt_in xs x0 y Ho Hy). lia. }
    cbn [app filter]. rewrite (proj2 (Z.ltb_lt _ _) Hx). reflexivity.
  Qed.

  Lemma value_last xs x : value_at p (xs ++ [x]) (bkt x) = worth x (close (bu_tick x)).
  Proof. unfold value_at. rewrite rev_filter_snoc, Z.eqb_refl. reflexivity. Qed.

  (** The new values after one more update. *)
  Lemma values_first x : period_values p [x] = [worth x (close (bu_tick x))].
  Proof.
    unfold period_values. cbn [map]. unfold grid. cbn [last]. rewrite Z.sub_diag, Z.div_0_l by lia. cbn [Z.to_nat seq map].
    cbn [Z.of_nat]. rewrite Z.mul_0_l, Z.add_0_r. f_equal. apply (value_last [] x).
  Qed.

  Lemma values_snoc xs x0 x : ordered timestamp_sec (map bu_tick ((xs ++ [x0]) ++ [x])) ->
    exists older, period_values p (xs ++ [x0]) = older ++ [worth x0 (close (bu_tick x0))] /\
    period_values p ((xs ++ [x0]) ++ [x])
    = if bkt x0 <? bkt x
      then period_values p (xs ++ [x0]) ++
           repeat (worth x (close (bu_tick x0))) (Z.to_nat ((bkt x - bkt x0) / p - 1)) ++ [worth x (close (bu_tick x))]
      else older ++ [worth x (close (bu_tick x))].
  Proof.
    intros Ho. rewrite map_app in Ho. cbn [map] in Ho. pose proof Ho as Ho'. apply ordered_snoc in Ho' as [Ho1 Hle].
    assert (Hb : bkt x0 <= bkt x).
    { apply bucket_mono; auto. apply Hle. rewrite map_app. apply in_or_app. right. left. reflexivity. }
    unfold period_values. rewrite (map_app bu_tick (xs ++ [x0]) [x]). rewrite (map_app bu_tick xs [x0]). cbn [map].
    rewrite !(grid_snoc p). cbv zeta.
    assert (Hhd : forall d, hd d (map bu_tick xs ++ [bu_tick x0]) = hd (bu_tick x0) (map bu_tick xs)) by (destruct xs; reflexivity).
    rewrite Hhd. set (b0 := bucket_of p (hd (bu_tick x0) (map bu_tick xs))).
    destruct (bucket_multiple p (timestamp_sec (bu_tick x0))) as [k1 E1].
    destruct (bucket_multiple p (timestamp_sec (bu_tick x))) as [k2 E2].
    destruct (bucket_multiple p (timestamp_sec (hd (bu_tick x0) (map bu_tick xs)))) as [k0 E0].
    fold (bkt x0) in E1. fold (bkt x) in E2. fold (bucket_of p (hd (bu_tick x0) (map bu_tick xs))) in E0. fold b0 in E0.
    assert (Hk : k0 <= k1 <= k2).
    { assert (b0 <= bkt x0).
      { unfold b0. rewrite map_app in Ho1. cbn [map] in Ho1. apply (ordered_bucket p Hp (map bu_tick xs)); auto.
        destruct xs; cbn; auto. }
      rewrite E1, E0 in H. rewrite E1, E2 in Hb. nia. }
    assert (S1 : steps p b0 (bkt x0) = S (Z.to_nat (k1 - k0))).
    { unfold steps. rewrite E1, E0. replace (k1 * p - k0 * p) with ((k1 - k0) * p) by lia.
      rewrite Z.div_mul by lia. reflexivity. }
    assert (S2 : steps p b0 (bkt x) = S (Z.to_nat (k2 - k0))).
    { unfold steps. rewrite E2, E0. replace (k2 * p - k0 * p) with ((k2 - k0) * p) by lia.
      rewrite Z.div_mul by lia. reflexivity. }
    rewrite S1, S2. exists (map (value_at p (xs ++ [x0])) (line p b0 (Z.to_nat (k1 - k0)))). split.
    - rewrite line_S, map_app. cbn [map]. replace (b0 + Z.of_nat (Z.to_nat (k1 - k0)) * p) with (bkt x0)
        by (rewrite E0, E1, Z2Nat.id by lia; lia). rewrite value_last. reflexivity.
    - destruct (Z.ltb_spec (bkt x0) (bkt x)) as [Hlt|Hge].
      + assert (k1 < k2) by (rewrite E1, E2 in Hlt; nia).
        assert (Eg : (bkt x - bkt x0) / p - 1 = k2 - k1 - 1).
        { rewrite E1, E2. replace (k2 * p - k1 * p) with ((k2 - k1) * p) by lia. rewrite Z.div_mul by lia. reflexivity. }
        rewrite Eg.
        replace (S (Z.to_nat (k2 - k0))) with (S (Z.to_nat (k1 - k0)) + (Z.to_nat (k2 - k1 - 1) + 1))%nat by lia.
        rewrite line_app, map_app. f_equal.
        * apply map_ext_in. intros b Hin. apply in_line in Hin as (i & Hi & ->).
          apply value_old; [exact Ho1| |]; [rewrite E0, E1|rewrite E0, E2]; nia.
        * replace (b0 + Z.of_nat (S (Z.to_nat (k1 - k0))) * p) with (bkt x0 + p)
            by (rewrite E0, E1, Nat2Z.inj_succ, Z2Nat.id by lia; lia).
          rewrite line_app, map_app. f_equal.
          -- assert (K : forall k, (k <= Z.to_nat (k2 - k1 - 1))%nat ->
                map (value_at p ((xs ++ [x0]) ++ [x])) (line p (bkt x0 + p) k) = repeat (worth x (close (bu_tick x0))) k).
             { induction k as [|k IH]; intros Hk'; [reflexivity|]. rewrite line_S, map_app, IH by lia. cbn [map].
               rewrite value_gap; [|exact Ho1|nia|rewrite E1, E2; nia].
               change [worth x (close (bu_tick x0))] with (repeat (worth x (close (bu_tick x0))) 1). rewrite <- repeat_app.
               f_equal. lia. }
             apply K. lia.
          -- unfold line. cbn [seq map]. f_equal.
             replace (bkt x0 + p + Z.of_nat (Z.to_nat (k2 - k1 - 1)) * p + Z.of_nat 0 * p) with (bkt x)
               by (rewrite E1, E2; rewrite Z2Nat.id by lia; lia).
             apply value_last.
      + assert (E : bkt x0 = bkt x) by lia. assert (k1 = k2) by (rewrite E1, E2 in E; nia). subst k2.
        rewrite line_S, map_app. cbn [map]. f_equal.
        * apply map_ext_in. intros b Hin. apply in_line in Hin as (i & Hi & ->).
          apply value_old; [exact Ho1| |]; [rewrite E0, E1|rewrite E0, E2]; nia.
        * f_equal. replace (b0 + Z.of_nat (Z.to_nat (k1 - k0)) * p) with (bkt x)
            by (rewrite E0, E2, Z2Nat.id by lia; lia). apply value_last.
  Qed.
End Values.

Section Vol.
  Context {M : machine} (N : Z) (p : Z) (Hp : 0 < p).
  Local Open Scope flt_scope.

  (** The returns as computed: log (previous / current). *)
  Definition rets (init : flt) (vals : list flt) : list flt :=
    map (fun ab => flog (fst ab / snd ab)) (combine (init :: vals) vals).

  (** The value before the next one. *)
  Definition prev (init : flt) (vals : list flt) : flt := last vals init.

  Lemma rets_cons init v vals : rets init (v :: vals) = flog (init / v) :: rets v vals.
  Proof. reflexivity. Qed.

  Lemma rets_snoc init vals v : rets init (vals ++ [v]) = rets init vals ++ [flog (prev init vals / v)].
  Proof.
    revert init. induction vals as [|v1 vals IH]; intros init; [reflexivity|].
    cbn [app]. rewrite !rets_cons, IH. cbn [app]. do 5 f_equal. unfold prev.
    destruct vals as [|v2 vals]; [reflexivity|]. cbn [last]. clear. revert v2.
    induction vals as [|a vals IH]; intros v2; [reflexivity|]. apply (IH a).
  Qed.

  Definition VP (init : flt) (vals : list flt) (s : vol_state) : Prop :=
    vl_num s = Z.of_nat (length vals) /\
    vl_variance s = mv_of N (rets init vals) /\
    (vals = [] -> vl_portfolio s = []) /\
    (forall l v, vals = l ++ [v] -> vl_portfolio s = [prev init l; v]).

  Definition value (s : vol_state) (price : flt) : flt := vl_base s * price + vl_quote s.

  Definition same_balances (s s' : vol_state) : Prop := vl_base s' = vl_base s /\ vl_quote s' = vl_quote s.

  Lemma VP_first s w t ev : ev = TickAdded t -> vl_num s = 0%Z -> vl_portfolio s = [] -> vl_variance s = NewMeanVar N ->
    exists s', vol_handler s w ev = Done s' /\ VP (value s (open t)) [value s (close t)] s' /\ same_balances s s'.
  Proof.
    intros -> H1 H2 H3. cbn [vol_handler]. rewrite H1, H2, H3. cbn [Z.leb Z.compare Z.eqb]. rewrite assert_true. cbn [bind].
    rewrite ?assert_true. cbn [bind app]. unfold GetLogarithmicReturn. cbn [length]. rewrite assert_true. cbn [bind].
    eexists. split; [reflexivity|]. split; [|split; reflexivity]. unfold VP. cbn [vl_num vl_variance vl_portfolio].
    split; [reflexivity|]. split; [reflexivity|]. split; [discriminate|].
    intros l v E. destruct l as [|a l]; [|destruct l; discriminate]. injection E as <-. reflexivity.
  Qed.

  Lemma VP_next init vals v0 s w ser t :
    length ser = length (vals ++ [v0]) -> VP init (vals ++ [v0]) s ->
    exists s', vol_handler s w (add_event 2 ser t) = Done s' /\ VP init ((vals ++ [v0]) ++ [value s (close t)]) s' /\ same_balances s s'.
  Proof.
    intros HL (H1 & H2 & _ & H4). specialize (H4 vals v0 eq_refl).
    assert (G : forall ev, ev = TickAdded t \/ (exists r, ev = TickAddedRemoved r t) ->
              (ev = TickAdded t -> (Z.of_nat (length (vals ++ [v0])) <=? 1)%Z = true) ->
              (ev <> TickAdded t -> (Z.of_nat (length (vals ++ [v0])) >=? 2)%Z = true) ->
              exists s', vol_handler s w ev = Done s' /\ VP init ((vals ++ [v0]) ++ [value s (close t)]) s' /\ same_balances s s').
    { intros ev Hev Ha Hb.
      assert (R : VP init ((vals ++ [v0]) ++ [value s (close t)])
                 (VolState (vl_base s) (vl_quote s) [v0; value s (close t)]
                   (mv_AddNewValue (mv_of N (rets init (vals ++ [v0]))) (flog (v0 / value s (close t)))) (vl_num s + 1))).
      { unfold VP. cbn [vl_num vl_variance vl_portfolio]. split; [rewrite H1, !app_length; cbn [length]; lia|].
        split; [rewrite (rets_snoc init (vals ++ [v0])), mv_of_snoc; unfold prev; rewrite last_snoc; reflexivity|].
        split; [destruct vals; discriminate|]. intros l v E. apply app_inj_tail in E as [<- <-].
        unfold prev. rewrite last_snoc. reflexivity. }
      destruct Hev as [->|[r ->]]; cbn [vol_handler]; rewrite H1, H2, H4.
      - rewrite Ha by reflexivity. rewrite assert_true. cbn [bind].
        replace (Z.of_nat (length (vals ++ [v0])) =? 0)%Z with false by (symmetry; apply Z.eqb_neq; rewrite app_length; cbn [length]; lia).
        cbn [pop_front bind app]. unfold GetLogarithmicReturn. cbn [length]. rewrite assert_true. cbn [bind].
        eexists. split; [reflexivity|]. split; [rewrite <- H1; exact R|split; reflexivity].
      - rewrite Hb by discriminate. rewrite assert_true. cbn [bind].
        cbn [pop_front bind app]. unfold GetLogarithmicReturn. cbn [length]. rewrite assert_true. cbn [bind].
        eexists. split; [reflexivity|]. split; [rewrite <- H1; exact R|split; reflexivity]. }
    unfold add_event. destruct (Nat.ltb_spec (length ser) (Z.to_nat 2)) as [Hl|Hl]; apply G; eauto.
    all: intros Hev; try congruence.
    - apply Z.leb_le. lia.
    - rewrite Z.geb_leb. apply Z.leb_le. lia.
  Qed.

  Lemma VP_upd init vals v0 s w t0 t : VP init (vals ++ [v0]) s ->
    exists s', vol_handler s w (TickUpdated t0 t) = Done s' /\ VP init (vals ++ [value s (close t)]) s'.
  Proof.
    intros (H1 & H2 & _ & H4). specialize (H4 vals v0 eq_refl). cbn [vol_handler]. rewrite H1, H2, H4.
    replace (Z.of_nat (length (vals ++ [v0])) >=? 1)%Z with true
      by (symmetry; rewrite Z.geb_leb; apply Z.leb_le; rewrite app_length; cbn [length]; lia).
    rewrite assert_true. cbn [set_back removelast bind app]. unfold GetLogarithmicReturn. cbn [length]. rewrite assert_true. cbn [bind].
    rewrite rets_snoc, mv_of_snoc, mv_Update by (rewrite mv_of_num; lia). cbn [bind].
    eexists. split; [reflexivity|]. unfold VP. cbn [vl_num vl_variance vl_portfolio].
    split; [rewrite !app_length; reflexivity|]. split; [rewrite rets_snoc, mv_of_snoc; reflexivity|].
    split; [destruct vals; discriminate|]. intros l v E. apply app_inj_tail in E as [<- <-]. reflexivity.
  Qed.

  (** Several added ticks with the same balances. *)
  Lemma VP_adds init ts : forall vals v0 s ser,
    length ser = length (vals ++ [v0]) -> VP init (vals ++ [v0]) s ->
    exists s', foldM (add1 vol_handler 2) (ser, s) ts = Done (ser ++ ts, s') /\
               VP init ((vals ++ [v0]) ++ map (fun t => value s (close t)) ts) s' /\ same_balances s s'.
  Proof.
    induction ts as [|t ts IH]; intros vals v0 s ser HL H.
    - exists s. cbn. rewrite !app_nil_r. repeat split; auto; apply H.
    - destruct (VP_next init vals v0 s (window 2 (ser ++ [t])) ser t HL H) as (s1 & E1 & H1 & B1).
      destruct (IH (vals ++ [v0]) (value s (close t)) s1 (ser ++ [t])) as (s2 & E2 & H2 & B2).
      + rewrite !app_length in *. cbn [length] in *. lia.
      + exact H1.
      + exists s2. cbn [foldM add1]. rewrite E1. cbn [bind]. rewrite E2. rewrite <- app_assoc. split; [reflexivity|].
        destruct B1 as [B1 B1'], B2 as [B2 B2']. split; [|split; congruence].
        cbn [map]. replace ((vals ++ [v0]) ++ value s (close t) :: map (fun t1 => value s (close t1)) ts)
          with (((vals ++ [v0]) ++ [value s (close t)]) ++ map (fun t1 => value s1 (close t1)) ts); [exact H2|].
        rewrite <- app_assoc. cbn [app]. do 3 f_equal. unfold value. rewrite B1, B1'. reflexivity.
  Qed.

  Definition vol_update (s : volatility) (x : balance_update) : outcome volatility :=
    vol_Update p s (bu_tick x) (bu_base x) (bu_quote x).

  Lemma vol_run xs : ordered timestamp_sec (map bu_tick xs) ->
    exists s, foldM vol_update ([], VolState #0 #0 [] (NewMeanVar N) 0) xs = Done (window 2 (series p (map bu_tick xs)), s) /\
      VP (initial_value xs) (period_values p xs) s.
  Proof.
    induction xs as [|x xs IH] using rev_ind; intros Ho.
    - eexists. split; [reflexivity|]. unfold VP. cbn. split; [reflexivity|]. split; [reflexivity|]. split; [auto|].
      intros [|? ?] v E; discriminate.
    - rewrite map_app in Ho. cbn [map] in Ho. assert (Ho' := Ho). apply ordered_snoc in Ho' as [Ho1 _].
      destruct (IH Ho1) as (s & E & H). rewrite foldM_snoc, E. cbn [bind]. unfold vol_update, vol_Update. cbn [fst snd].
      rewrite (map_app bu_tick xs [x]). cbn [map]. set (u := bu_tick x) in *. set (us := map bu_tick xs) in *.
      rewrite (Update_spec vol_handler 2 ltac:(lia) p Hp _ _ _ (series_next p Hp us u Ho)), (series_extend p Hp us u Ho).
      unfold update_spec, extend.
      destruct (list_snoc xs) as [->|(xs0 & x0 & Exs)].
      + destruct H as (H1 & H2 & H3 & _). change (series p us) with (@nil ohlc_tick) in *. cbn [rev].
        destruct (VP_first (VolState (bu_base x) (bu_quote x) (vl_portfolio s) (vl_variance s) (vl_num s))
                    (window 2 ([] ++ [new_tick p u])) (new_tick p u) (add_event 2 [] (new_tick p u))) as (s' & E1 & V1 & _); auto.
        exists s'. unfold add1. rewrite E1. split; [reflexivity|]. cbn [app]. rewrite (values_first p Hp). exact V1.
      + pose proof Ho as Hm. unfold us, u in Hm. rewrite Exs in Hm.
        change [bu_tick x] with (map bu_tick [x]) in Hm. rewrite <- map_app in Hm.
        destruct (values_snoc p Hp xs0 x0 x Hm) as (older & Ev0 & Ev).
        rewrite <- Exs in Ev0, Ev. rewrite Ev. clear Ev.
        assert (Einit : initial_value (xs ++ [x]) = initial_value xs) by (rewrite Exs; destruct xs0; reflexivity).
        rewrite Einit.
        assert (Eus : us = map bu_tick xs0 ++ [bu_tick x0]) by (unfold us; rewrite Exs, map_app; reflexivity).
        destruct (series_last p Hp (map bu_tick xs0) (bu_tick x0)) as (so & Es & _).
        { rewrite <- Eus. exact Ho1. }
        rewrite <- Eus in Es. set (t := period_tick p us (bucket_of p (bu_tick x0))) in *.
        assert (Ets : timestamp_sec t = bucket_of p (bu_tick x0)) by apply period_tick_ts.
        assert (Ecl : close t = close (bu_tick x0)) by (unfold t; rewrite Eus; apply period_tick_close).
        assert (HL : length (series p us) = length (period_values p xs)).
        { unfold series, period_values. rewrite !map_length. reflexivity. }
        rewrite Es in HL |- *. rewrite rev_app_distr. cbn [rev app]. rewrite rev_involutive, Ets.
        rewrite Ev0 in H, HL. set (v0 := worth x0 _) in *.
        set (s1 := VolState (bu_base x) (bu_quote x) (vl_portfolio s) (vl_variance s) (vl_num s)).
        assert (H' : VP (initial_value xs) (older ++ [v0]) s1) by exact H.
        fold u. destruct (bucket_of p (bu_tick x0) <? bucket_of p u)%Z.
        * destruct (VP_adds (initial_value xs) (flats p (gap p t u) t ++ [new_tick p u]) older v0 s1 (so ++ [t]) HL H')
            as (s' & E1 & V1 & _).
          exists s'. rewrite E1. split; [reflexivity|]. rewrite Ev0.
          rewrite map_app in V1. cbn [map] in V1.
          assert (Eg : map (fun t1 => value s1 (close t1)) (flats p (gap p t u) t)
                       = repeat (worth x (close (bu_tick x0))) (Z.to_nat ((bucket_of p u - bucket_of p (bu_tick x0)) / p - 1))).
          { unfold gap. rewrite Ets, flats_map, map_map. cbn [flat_at close]. rewrite Ecl.
            generalize (Z.to_nat ((bucket_of p u - bucket_of p (bu_tick x0)) / p - 1)). intros k. generalize 0%nat.
            induction k as [|k IHk]; intros a; [reflexivity|]. cbn [seq map repeat]. f_equal. apply IHk. }
          rewrite Eg in V1. exact V1.
        * destruct (VP_upd (initial_value xs) older v0 s1 (window 2 (so ++ [merge_tick t u])) t (merge_tick t u) H') as (s' & E1 & V1).
          exists s'. rewrite E1. split; [reflexivity|]. exact V1.
  Qed.
End Vol.

(** ** Exact arithmetic *)
Section Exact.
  Context (sh : R -> String.string) (as_ : bool).
  Notation E := (exact sh as_).
  Local Open Scope R_scope.

  Lemma mean_opp l : mean (map Ropp l) = - mean l.
  Proof.
    destruct l as [|x l]; [cbn; lra|]. rewrite !mean_eq by discriminate. rewrite map_length.
    assert (K : forall m, Rsum (map Ropp m) = - Rsum m).
    { intros m. unfold Rsum. induction m as [|y m IHm]; cbn; lra. }
    rewrite K. unfold Rdiv. lra.
  Qed.

  Lemma variance_opp l : variance (map Ropp l) = variance l.
  Proof.
    unfold variance. rewrite mean_opp, map_map. f_equal. apply map_ext. intros x. ring.
  Qed.

  Lemma ln_swap a b : 0 < a -> 0 < b -> ln (a / b) = - ln (b / a).
  Proof.
    intros Ha Hb. rewrite <- ln_Rinv by (apply Rdiv_lt_0_compat; assumption). f_equal. field. lra.
  Qed.

  Lemma last_or_all_map {A B} (f : A -> B) n l : last_or_all n (map f l) = map f (last_or_all n l).
  Proof.
    unfold last_or_all. destruct (n =? 0)%Z; [reflexivity|]. unfold lastn. rewrite map_length. revert l.
    generalize (Z.to_nat n). intros k l. generalize (length l - k)%nat. intros m. revert l.
    induction m as [|m IH]; intros [|x l]; try reflexivity. cbn. apply IH.
  Qed.

  Lemma rets_exact (steps : list (R * R)) : (forall a b, In (a, b) steps -> 0 < a /\ 0 < b) ->
    map (fun ab : R * R => ln (fst ab / snd ab)) steps = map Ropp (map (fun ab => ln (snd ab / fst ab)) steps).
  Proof.
    intros H. rewrite map_map. apply map_ext_in. intros [a b] Hin. cbn [fst snd]. destruct (H a b Hin). apply ln_swap; assumption.
  Qed.

  Theorem vol_exact N p xs : (0 <= N)%Z -> (0 < p)%Z -> ordered timestamp_sec (map bu_tick xs) ->
    (forall v, In v (@initial_value E xs :: period_values p xs) -> 0 < v) ->
    exists s, foldM (@vol_update E p) ([], @VolState E 0 0 [] (@NewMeanVar E N) 0%Z) xs = Done s /\
      @vol_Get E s = sqrt (variance (last_or_all N (map (fun ab => ln (snd ab / fst ab)) (@value_steps E p xs)))) /\
      @vol_GetNumOhlcTicks E s = Z.of_nat (length (grid p (map bu_tick xs))).
  Proof.
    intros HN Hp Ho Hpos. destruct (@vol_run E N p Hp xs Ho) as (s & E1 & (V1 & V2 & _)).
    exists (window 2 (series p (map bu_tick xs)), s). split; [exact E1|]. split.
    - unfold vol_Get, mv_GetStandardDeviation. cbn [snd]. rewrite V2.
      change (sqrt (@mv_GetVariance E (mv_of N (rets (initial_value xs) (period_values p xs))))
              = sqrt (variance (last_or_all N (map (fun ab : R * R => ln (snd ab / fst ab)) (@value_steps E p xs))))).
      rewrite variance_of by exact HN. f_equal.
      change (@rets E (initial_value xs) (period_values p xs)) with (map (fun ab : R * R => ln (fst ab / snd ab)) (@value_steps E p xs)).
      rewrite rets_exact.
      + rewrite last_or_all_map. apply variance_opp.
      + intros a b Hin. unfold value_steps in Hin.
        split; apply Hpos; [apply in_combine_l in Hin|apply in_combine_r in Hin; right]; exact Hin.
    - unfold vol_GetNumOhlcTicks. cbn [snd]. rewrite V1. unfold period_values. rewrite map_length. reflexivity.
  Qed.
End Exact.
