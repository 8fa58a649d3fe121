(** The last-N-ticks aggregator and the resampler follow the series of the updates. *)
From Coq Require Import ZArith Bool List Lia.
From Verif.Model Require Import Outcome Machine Types History Indicators.
From Verif.Spec Require Import SeriesSpec.
From Verif.Proofs Require Import Base SeriesProofs.
Import ListNotations.
Local Open Scope Z_scope.

Lemma lastn_length {A} n (l : list A) : length (lastn n l) = Nat.min n (length l).
Proof. unfold lastn. rewrite skipn_length. lia. Qed.

Lemma lastn_short {A} n (l : list A) : (length l <= n)%nat -> lastn n l = l.
Proof. intros H. unfold lastn. replace (length l - n)%nat with 0%nat by lia. reflexivity. Qed.

Lemma lastn_snoc_short {A} n (l : list A) x : (length l < n)%nat -> lastn n (l ++ [x]) = lastn n l ++ [x].
Proof.
  intros H. rewrite !lastn_short; auto; [lia|]. rewrite app_length. cbn. lia.
Qed.

Lemma skipn_snoc {A} k (l : list A) x : (k <= length l)%nat -> skipn k (l ++ [x]) = skipn k l ++ [x].
Proof. intros H. rewrite skipn_app. replace (k - length l)%nat with 0%nat by lia. reflexivity. Qed.

Lemma skipn_S_tl {A} k (l : list A) : skipn (S k) l = tl (skipn k l).
Proof. revert l. induction k as [|k IH]; intros [|a l]; try reflexivity. cbn [skipn] in *. apply IH. Qed.

Lemma lastn_snoc_full {A} n (l : list A) x : (0 < n <= length l)%nat ->
  lastn n (l ++ [x]) = tl (lastn n l) ++ [x].
Proof.
  intros H. unfold lastn. rewrite app_length. cbn [length].
  replace (length l + 1 - n)%nat with (S (length l - n)) by lia.
  rewrite skipn_snoc by lia. rewrite skipn_S_tl. reflexivity.
Qed.

Lemma hd_skipn {A} k (l : list A) d : hd d (skipn k l) = nth k l d.
Proof. revert l. induction k as [|k IH]; intros [|a l]; try reflexivity. cbn. apply IH. Qed.

Lemma last_rev {A} (l : list A) d : last (rev l) d = hd d l.
Proof. destruct l as [|a l]; [reflexivity|]. cbn [rev hd]. apply last_snoc. Qed.

Lemma removelast_rev {A} (l : list A) : removelast (rev l) = rev (tl l).
Proof. destruct l as [|a l]; [reflexivity|]. cbn [rev tl]. apply removelast_last. Qed.

Section Fill.
  Context {M : machine}.
  Context (p : Z) (Hp : 0 < p).

  (** Number of flat ticks the fill loops add. *)
  Lemma fill_gap t b : (exists m, 0 <= m /\ b - timestamp_sec t = m * p) ->
    let k := Z.to_nat ((b - timestamp_sec t) / p - 1) in
    (k <= fill_fuel p b [t])%nat /\ (timestamp_sec t + Z.of_nat k * p + p <? b = false) /\
    (forall i, (i < k)%nat -> timestamp_sec t + Z.of_nat i * p + p <? b = true).
  Proof.
    intros (m & Hm & E). cbv zeta. unfold fill_fuel. rewrite (proj2 (Z.ltb_lt 0 p) Hp).
    rewrite E, Z.div_mul by lia. repeat split.
    - lia.
    - apply Z.ltb_ge. destruct (Z.eq_dec m 0) as [->|Hz].
      + replace (Z.to_nat (0 - 1)) with 0%nat by lia. lia.
      + rewrite Z2Nat.id by lia. nia.
    - intros i Hi. apply Z.ltb_lt. nia.
  Qed.

  Lemma fill_loop_flats b k fuel t older :
    (k <= fuel)%nat -> timestamp_sec t + Z.of_nat k * p + p <? b = false ->
    (forall i, (i < k)%nat -> timestamp_sec t + Z.of_nat i * p + p <? b = true) ->
    fill_loop fuel p b (t :: older) = Done (rev (flats p k t) ++ t :: older).
  Proof.
    revert k t older. induction fuel as [|fuel IH]; intros k t older Hk H1 H2.
    - replace k with 0%nat in * by lia. cbn. replace (timestamp_sec t + p) with (timestamp_sec t + Z.of_nat 0 * p + p) by lia.
      rewrite H1. reflexivity.
    - destruct k as [|k].
      + cbn. replace (timestamp_sec t + p) with (timestamp_sec t + Z.of_nat 0 * p + p) by lia. rewrite H1. reflexivity.
      + cbn [fill_loop]. replace (timestamp_sec t + p) with (timestamp_sec t + Z.of_nat 0 * p + p) by lia.
        rewrite H2 by lia. rewrite (IH k); [| lia | |].
        * cbn [flats rev]. rewrite <- app_assoc. reflexivity.
        * cbn [timestamp_sec flat_tick]. rewrite <- H1. f_equal. lia.
        * intros i Hi. cbn [timestamp_sec flat_tick]. rewrite <- (H2 (S i)) by lia. f_equal. lia.
  Qed.
End Fill.

Section LastN.
  Context {M : machine} {S : Type} (handler : S -> list ohlc_tick -> tick_event -> outcome S).
  Context (n : Z) (Hn : 0 < n) (p : Z) (Hp : 0 < p).
  Notation N := (Z.to_nat n).

  (** The event for a new tick t after the series ser. *)
  Definition add_event (ser : list ohlc_tick) (t : ohlc_tick) : tick_event :=
    if (length ser <? N)%nat then TickAdded t
    else TickAddedRemoved (nth (length ser - N) ser t) t.

  Definition window (ser : list ohlc_tick) : list ohlc_tick := rev (lastn N ser).

  Definition add1 (x : list ohlc_tick * S) (t : ohlc_tick) : outcome (list ohlc_tick * S) :=
    let (ser, s) := x in
    do s' <- handler s (window (ser ++ [t])) (add_event ser t) ;
    Done (ser ++ [t], s').

  Lemma window_snoc ser t : exists w, window (ser ++ [t]) = t :: w.
  Proof.
    unfold window. destruct (le_lt_dec N (length ser)) as [H|H].
    - rewrite lastn_snoc_full by lia. rewrite rev_app_distr. cbn. eauto.
    - rewrite lastn_snoc_short by lia. rewrite rev_app_distr. cbn. eauto.
  Qed.

  Lemma NewAdded ser t s :
    NewOhlcTickAdded handler n (t :: window ser) s
    = omap (fun x => (window (fst x), snd x)) (add1 (ser, s) t).
  Proof.
    unfold NewOhlcTickAdded, omap, add1.
    assert (HL : length (t :: window ser) = (1 + Nat.min N (length ser))%nat).
    { cbn [length]. unfold window. rewrite rev_length, lastn_length. reflexivity. }
    destruct (Z.leb_spec (Z.of_nat (length (t :: window ser))) n) as [H|H].
    - assert (Hs : (length ser < N)%nat) by lia.
      unfold add_event. rewrite (proj2 (Nat.ltb_lt _ _) Hs).
      assert (Hw : window (ser ++ [t]) = t :: window ser)
        by (unfold window; rewrite lastn_snoc_short, rev_app_distr by lia; reflexivity).
      rewrite Hw, bind_assoc. apply bind_ext. intros s' _. cbn [bind fst snd]. rewrite Hw. reflexivity.
    - assert (Hs : (N <= length ser)%nat) by lia.
      unfold add_event. rewrite (proj2 (Nat.ltb_ge _ _) Hs).
      assert (Hw : removelast (t :: window ser) = window (ser ++ [t])).
      { unfold window. rewrite lastn_snoc_full by lia. rewrite rev_app_distr. cbn [rev app].
        rewrite <- removelast_rev.
        destruct (rev (lastn N ser)) eqn:E; [|reflexivity].
        apply (f_equal (@length _)) in E. rewrite rev_length, lastn_length in E. cbn in E. lia. }
      rewrite Hw. destruct (window_snoc ser t) as [w Ew]. rewrite Ew.
      assert (Hl : last (t :: window ser) t = nth (length ser - N) ser t).
      { rewrite <- hd_skipn. fold (lastn N ser). rewrite <- last_rev. fold (window ser).
        destruct (window ser) eqn:E; [|reflexivity].
        apply (f_equal (@length _)) in E. unfold window in E. rewrite rev_length, lastn_length in E. cbn in E. lia. }
      rewrite Hl, bind_assoc. apply bind_ext. intros s' _. cbn [bind fst snd]. rewrite Ew. reflexivity.
  Qed.

  (** The fill loop feeds the flat ticks one by one. *)
  Lemma lastn_fill_flats b k fuel ser t s :
    (k <= fuel)%nat -> timestamp_sec t + Z.of_nat k * p + p <? b = false ->
    (forall i, (i < k)%nat -> timestamp_sec t + Z.of_nat i * p + p <? b = true) ->
    lastn_fill handler fuel n p b (window (ser ++ [t])) s
    = omap (fun x => (window (fst x), snd x)) (foldM add1 (ser ++ [t], s) (flats p k t)).
  Proof.
    revert k ser t s. induction fuel as [|fuel IH]; intros k ser t s Hk H1 H2.
    - replace k with 0%nat in * by lia. unfold lastn_fill. destruct (window_snoc ser t) as [w Ew]. rewrite Ew.
      replace (timestamp_sec t + p) with (timestamp_sec t + Z.of_nat 0 * p + p) by lia.
      rewrite H1. unfold omap. cbn [flats foldM bind fst snd]. rewrite Ew. reflexivity.
    - cbn [lastn_fill]. destruct (window_snoc ser t) as [w Ew]. rewrite Ew.
      replace (timestamp_sec t + p) with (timestamp_sec t + Z.of_nat 0 * p + p) by lia.
      destruct k as [|k].
      + rewrite H1. unfold omap. cbn [flats foldM bind fst snd]. rewrite Ew. reflexivity.
      + rewrite H2 by lia. rewrite <- Ew, NewAdded. unfold omap. cbn [flats foldM]. rewrite !bind_assoc. apply bind_ext.
        intros [ser1 s'] H. pose proof (f_equal (fun x => match x with Done y => fst y | _ => [] end) H) as Hf.
        cbn [fst] in Hf. unfold add1 in Hf, H. inv_done. clear Hf. cbn [bind fst snd].
        rewrite (IH k); [reflexivity|lia| |].
        * cbn [timestamp_sec flat_tick]. rewrite <- H1. f_equal. lia.
        * intros i Hi. cbn [timestamp_sec flat_tick]. rewrite <- (H2 (Datatypes.S i)) by lia. f_equal. lia.
  Qed.

  (** A state of the aggregator seen as the whole series and the owner's state. *)
  Definition update_spec (ser : list ohlc_tick) (s : S) (u : ohlc_tick) : outcome (list ohlc_tick * S) :=
    match rev ser with
    | [] => add1 (ser, s) (new_tick p u)
    | t :: older =>
      if timestamp_sec t <? bucket_of p u
      then foldM add1 (ser, s) (flats p (gap p t u) t ++ [new_tick p u])
      else do s' <- handler s (window (rev older ++ [merge_tick t u])) (TickUpdated t (merge_tick t u)) ;
           Done (rev older ++ [merge_tick t u], s')
    end.

  Lemma add1_fst x t y : add1 x t = Done y -> fst y = fst x ++ [t].
  Proof. destruct x as [ser s]. unfold add1. intros H. inv_done. reflexivity. Qed.

  Lemma adds_fst ts x y : foldM add1 x ts = Done y -> fst y = fst x ++ ts.
  Proof.
    revert x. induction ts as [|t ts IH]; intros x H; cbn in H.
    - injection H as <-. rewrite app_nil_r. reflexivity.
    - apply bind_done in H as (z & H1 & H2). rewrite (IH z H2), (add1_fst _ _ _ H1), <- app_assoc. reflexivity.
  Qed.

  Lemma update_spec_fst ser s u y : update_spec ser s u = Done y -> fst y = extend p ser u.
  Proof.
    unfold update_spec, extend. destruct (rev ser) as [|t older] eqn:E.
    - intros H. apply add1_fst in H. rewrite H. cbn.
      assert (ser = []) as -> by (rewrite <- (rev_involutive ser), E; reflexivity). reflexivity.
    - destruct (timestamp_sec t <? bucket_of p u).
      + intros H. apply adds_fst in H. exact H.
      + intros H. inv_done. reflexivity.
  Qed.

  Lemma Update_spec ser s u :
    (match rev ser with
     | [] => True
     | t :: _ => exists m, 0 <= m /\ bucket_of p u - timestamp_sec t = m * p
     end) ->
    LastN_Update handler n p (window ser, s) u
    = omap (fun x => (window (fst x), snd x)) (update_spec ser s u).
  Proof.
    intros Hser. unfold LastN_Update. rewrite (proj2 (Z.eqb_neq p 0)) by lia.
    fold (bucket p (timestamp_sec u)). fold (bucket_of p u).
    destruct (list_snoc ser) as [->|(ser0 & t & ->)].
    - assert (Hw : window [] = []) by (unfold window; rewrite lastn_short by (cbn; lia); reflexivity).
      assert (Hf : forall fuel, lastn_fill handler fuel n p (bucket_of p u) [] s = Done ([], s))
        by (intros [|?]; reflexivity).
      rewrite Hw, Hf. cbn [bind]. unfold update_spec. cbn [rev].
      change [{| timestamp_sec := bucket_of p u; open := open u; high := high u; low := low u; close := close u; volume := volume u |}]
        with (new_tick p u :: []).
      rewrite <- Hw at 1. apply (NewAdded [] (new_tick p u) s).
    - rewrite rev_app_distr in Hser. cbn [rev app] in Hser.
      destruct (fill_gap p Hp t (bucket_of p u) Hser) as (G1 & G2 & G3).
      assert (Hfuel : fill_fuel p (bucket_of p u) (window (ser0 ++ [t])) = fill_fuel p (bucket_of p u) [t]).
      { destruct (window_snoc ser0 t) as [w ->]. reflexivity. }
      rewrite Hfuel, (lastn_fill_flats _ _ _ ser0 t s G1 G2 G3). fold (gap p t u).
      unfold update_spec. rewrite rev_app_distr. cbn [rev app]. rewrite rev_involutive.
      destruct Hser as (m & Hm & E).
      destruct (Z.ltb_spec (timestamp_sec t) (bucket_of p u)) as [Hlt|Hge].
      + rewrite foldM_snoc. unfold omap. rewrite !bind_assoc. apply bind_ext. intros [ser' s'] Hf.
        apply adds_fst in Hf. cbn [fst] in Hf. cbn [bind fst snd].
        assert (Hlast : exists ser1 t1, ser' = ser1 ++ [t1] /\ timestamp_sec t1 < bucket_of p u).
        { destruct (list_snoc (flats p (gap p t u) t)) as [E0|(fs & t1 & E0)].
          - rewrite E0, app_nil_r in Hf. exists ser0, t. split; auto.
          - exists ((ser0 ++ [t]) ++ fs), t1. rewrite Hf, E0, app_assoc. split; [reflexivity|].
            rewrite flats_map in E0. assert (Hin : In t1 (fs ++ [t1])) by (apply in_or_app; right; left; reflexivity).
            rewrite <- E0 in Hin. apply in_map_iff in Hin as (i & <- & Hi). apply in_seq in Hi.
            cbn [timestamp_sec flat_at]. unfold gap in Hi. rewrite E in Hi. rewrite Z.div_mul in Hi by lia. nia. }
        destruct Hlast as (ser1 & t1 & -> & Ht1). destruct (window_snoc ser1 t1) as [w Ew].
        rewrite Ew. rewrite (proj2 (Z.ltb_lt _ _) Ht1). rewrite <- Ew.
        change {| timestamp_sec := bucket_of p u; open := open u; high := high u; low := low u; close := close u; volume := volume u |}
          with (new_tick p u).
        apply NewAdded.
      + assert (m = 0) by nia. subst m.
        assert (G0 : gap p t u = 0%nat) by (unfold gap; rewrite E, Z.div_mul by lia; lia).
        rewrite G0. cbn [flats foldM omap bind fst snd]. destruct (window_snoc ser0 t) as [w Ew]. rewrite Ew.
        rewrite (proj2 (Z.ltb_ge _ _) Hge). rewrite (proj2 (Z.eqb_eq (timestamp_sec t) (bucket_of p u))) by lia.
        rewrite assert_true. cbn [bind].
        change {| timestamp_sec := timestamp_sec t; open := open t; high := fmax (high t) (high u);
                  low := fmin (low t) (low u); close := close u; volume := fadd (volume t) (volume u) |}
          with (merge_tick t u).
        assert (Ew' : merge_tick t u :: w = window (ser0 ++ [merge_tick t u])).
        { unfold window in *. assert (Hl : length (ser0 ++ [merge_tick t u]) = length (ser0 ++ [t])) by (rewrite !app_length; reflexivity).
          destruct (le_lt_dec N (length ser0)) as [H|H].
          - rewrite lastn_snoc_full in * by lia. rewrite rev_app_distr in *. cbn in *. congruence.
          - rewrite lastn_snoc_short in * by lia. rewrite rev_app_distr in *. cbn in *. congruence. }
        rewrite Ew'. unfold omap. rewrite bind_assoc. apply bind_ext. intros s' _. reflexivity.
  Qed.

  (** The condition of Update_spec holds along an ordered sequence of updates. *)
  Lemma series_next us u : ordered timestamp_sec (us ++ [u]) ->
    match rev (series p us) with
    | [] => True
    | t :: _ => exists m, 0 <= m /\ bucket_of p u - timestamp_sec t = m * p
    end.
  Proof.
    intros Ho. apply ordered_snoc in Ho as [Ho1 Hle].
    destruct (list_snoc us) as [->|(us0 & u0 & ->)]; [exact I|].
    destruct (series_last p Hp us0 u0 Ho1) as (older & -> & _).
    rewrite rev_app_distr. cbn [rev app]. rewrite period_tick_ts.
    destruct (bucket_multiple p (timestamp_sec u0)) as [k1 E1].
    destruct (bucket_multiple p (timestamp_sec u)) as [k2 E2].
    exists (k2 - k1). unfold bucket_of. rewrite E1, E2.
    assert (bucket p (timestamp_sec u0) <= bucket p (timestamp_sec u)).
    { apply bucket_mono; auto. apply Hle. apply in_or_app. right. left. reflexivity. }
    split; nia.
  Qed.

  (** *** The invariant rule: if every callback preserves P (as a relation between the
      owner's state and the series) then it holds after every ordered update sequence. *)
  Section Invariant.
    Context (P : S -> list ohlc_tick -> Prop).
    Context (Hadd : forall s ser t, P s ser ->
              exists s', handler s (window (ser ++ [t])) (add_event ser t) = Done s' /\ P s' (ser ++ [t])).
    Context (Hupd : forall s ser t0 t1, P s (ser ++ [t0]) ->
              exists s', handler s (window (ser ++ [t1])) (TickUpdated t0 t1) = Done s' /\ P s' (ser ++ [t1])).

    Lemma adds_inv ts ser s : P s ser ->
      exists s', foldM add1 (ser, s) ts = Done (ser ++ ts, s') /\ P s' (ser ++ ts).
    Proof.
      revert ser s. induction ts as [|t ts IH]; intros ser s H.
      - exists s. rewrite app_nil_r. split; [reflexivity|exact H].
      - destruct (Hadd s ser t H) as (s1 & E1 & H1). destruct (IH _ _ H1) as (s2 & E2 & H2).
        exists s2. cbn [foldM]. unfold add1 at 1. rewrite E1. cbn [bind]. rewrite E2.
        rewrite <- app_assoc in H2 |- *. split; [reflexivity|exact H2].
    Qed.

    Lemma update_inv us s u :
      ordered timestamp_sec (us ++ [u]) -> P s (series p us) ->
      exists s', LastN_Update handler n p (window (series p us), s) u = Done (window (series p (us ++ [u])), s')
                 /\ P s' (series p (us ++ [u])).
    Proof.
      intros Ho HP. rewrite (Update_spec _ _ _ (series_next us u Ho)), (series_extend p Hp us u Ho).
      unfold update_spec, extend.
      destruct (rev (series p us)) as [|t older] eqn:E.
      - assert (E0 : series p us = []) by (rewrite <- (rev_involutive (series p us)), E; reflexivity).
        rewrite E0 in *. destruct (Hadd s [] (new_tick p u) HP) as (s1 & E1 & H1).
        exists s1. unfold add1. rewrite E1. split; [reflexivity|exact H1].
      - destruct (timestamp_sec t <? bucket_of p u).
        + destruct (adds_inv (flats p (gap p t u) t ++ [new_tick p u]) _ _ HP) as (s1 & E1 & H1).
          exists s1. rewrite E1. split; [reflexivity|exact H1].
        + assert (E0 : series p us = rev older ++ [t]) by (rewrite <- (rev_involutive (series p us)), E; reflexivity).
          rewrite E0 in HP. destruct (Hupd s (rev older) t (merge_tick t u) HP) as (s1 & E1 & H1).
          exists s1. rewrite E1. split; [reflexivity|exact H1].
    Qed.

    Theorem run_updates s0 us :
      P s0 [] -> ordered timestamp_sec us ->
      exists s, foldM (LastN_Update handler n p) ([], s0) us = Done (window (series p us), s)
                /\ P s (series p us).
    Proof.
      intros H0. induction us as [|u us IH] using rev_ind; intros Ho.
      - exists s0. unfold window. rewrite lastn_short by (cbn; lia). split; [reflexivity|exact H0].
      - assert (Ho' := Ho). apply ordered_snoc in Ho' as [Ho1 _]. destruct (IH Ho1) as (s & E & H).
        rewrite foldM_snoc, E. cbn [bind]. apply update_inv; auto.
    Qed.
  End Invariant.
End LastN.

Section Resample.
  Context {M : machine}.
  Context (p : Z) (Hp : 0 < p).

  Lemma resample_step_spec ser r :
    (match rev ser with
     | [] => True
     | t :: _ => exists m, 0 <= m /\ bucket_of p (price_tick r) - timestamp_sec t = m * p
     end) ->
    resample_step p (rev ser) r = Done (rev (extend p ser (price_tick r))).
  Proof.
    intros Hser. unfold resample_step. rewrite (proj2 (Z.eqb_neq p 0)) by lia.
    fold (bucket p (pr_timestamp_sec r)). change (bucket p (pr_timestamp_sec r)) with (bucket_of p (price_tick r)).
    set (u := price_tick r) in *. unfold extend.
    destruct (rev ser) as [|t older] eqn:Er; [reflexivity|].
    assert (Es : ser = rev older ++ [t]) by (rewrite <- (rev_involutive ser), Er; reflexivity).
    destruct (fill_gap p Hp t (bucket_of p u) Hser) as (G1 & G2 & G3).
    change (fill_fuel p (bucket_of p u) (t :: older)) with (fill_fuel p (bucket_of p u) [t]).
    rewrite (fill_loop_flats p _ _ _ t older G1 G2 G3). fold (gap p t u). cbn [bind].
    destruct Hser as (m & Hm & E).
    destruct (Z.ltb_spec (timestamp_sec t) (bucket_of p u)) as [Hlt|Hge].
    - assert (Hlast : exists t1 l1, rev (flats p (gap p t u) t) ++ t :: older = t1 :: l1 /\ timestamp_sec t1 < bucket_of p u).
      { destruct (list_snoc (flats p (gap p t u) t)) as [E0|(fs & t1 & E0)].
        - rewrite E0. exists t, older. split; auto.
        - exists t1, (rev fs ++ t :: older). rewrite E0, rev_app_distr. split; [reflexivity|].
          rewrite flats_map in E0. assert (Hin : In t1 (fs ++ [t1])) by (apply in_or_app; right; left; reflexivity).
          rewrite <- E0 in Hin. apply in_map_iff in Hin as (i & <- & Hi). apply in_seq in Hi.
          cbn [timestamp_sec flat_at]. unfold gap in Hi. rewrite E in Hi. rewrite Z.div_mul in Hi by lia. nia. }
      destruct Hlast as (t1 & l1 & El & Ht1). rewrite El. rewrite (proj2 (Z.ltb_lt _ _) Ht1). rewrite <- El.
      rewrite !rev_app_distr, Es, rev_app_distr. cbn [rev app]. rewrite rev_involutive. reflexivity.
    - assert (m = 0) by nia. subst m.
      assert (G0 : gap p t u = 0%nat) by (unfold gap; rewrite E, Z.div_mul by lia; lia).
      rewrite G0. cbn [flats rev app].
      rewrite (proj2 (Z.ltb_ge _ _) Hge). rewrite (proj2 (Z.eqb_eq (timestamp_sec t) (bucket_of p u))) by lia.
      rewrite assert_true. cbn [bind]. rewrite rev_app_distr, rev_involutive. reflexivity.
  Qed.

  Theorem Resample_series l :
    ordered pr_timestamp_sec l -> Resample l p = Done (series p (map price_tick l)).
  Proof.
    intros Ho. unfold Resample.
    assert (H : foldM (resample_step p) [] l = Done (rev (series p (map price_tick l)))).
    { induction l as [|r l IH] using rev_ind; [reflexivity|].
      assert (Ho' : ordered timestamp_sec (map price_tick l ++ [price_tick r])).
      { change [price_tick r] with (map price_tick [r]). rewrite <- map_app. apply ordered_map. exact Ho. }
      rewrite foldM_snoc, IH by (apply ordered_snoc in Ho; apply Ho). cbn [bind].
      rewrite map_app. cbn [map]. rewrite (series_extend p Hp _ _ Ho').
      apply resample_step_spec. apply (series_next p Hp _ _ Ho'). }
    rewrite H. cbn. rewrite rev_involutive. reflexivity.
  Qed.
End Resample.
