(** C101: the report on removed outliers. *)
From Coq Require Import ZArith Bool String Ascii Lia.
From Coq Require Import List.
From Flocq Require Import Core BinarySingleNaN.
From Verif.Model Require Import Outcome Machine Types History Convert MachineIEEE Traders TimeText Files Programs Console.
From Verif.Spec Require Import LogSpec SeriesSpec HistorySpec ReaderSpec ConsoleSpec.
From Verif.Proofs Require Import Base LogProofs OutlierProofs ProgramProofs FixedProofs ReportProofs.
From Verif.Properties Require Import HistoryProps ReportProps.
Import ListNotations.
Local Open Scope Z_scope.

Lemma last_outliers_in n l j : In j (last_outliers n l) -> In j l.
Proof.
  unfold last_outliers. destruct (n =? 0); [auto|]. intros H.
  rewrite <- (firstn_skipn (length l - Z.to_nat n) l). apply in_or_app. right. exact H.
Qed.

Section Report.
  Context {lm : libm} {as_ : bool}.
  Local Notation I := (ieee lm as_).

  Lemma outlier_line_shows b (r : @price_record I) : shows_record b r (outlier_line b r).
  Proof.
    exists (fmt_d (pr_timestamp_sec r)), (f32_fmt 2 (pr_price r)), (f32_fmt 4 (pr_volume r)).
    split; [apply number_fmt_d|]. split; [apply fmt_column; lia|]. split; [apply fmt_column; lia|].
    unfold outlier_line. destruct b; reflexivity.
  Qed.

  Lemma print_report (h : list (@price_record I)) ctx :
    (forall k b, In (k, b) ctx -> 0 <= k < Z.of_nat (length h)) ->
    (forall i j k b k' b', nth_error ctx i = Some (k, b) -> nth_error ctx j = Some (k', b') -> (i < j)%nat -> k < k') ->
    (forall b k' b', In (0, b) ctx -> In (k', b') ctx -> 0 < k' -> exists b'', In (1, b'') ctx) ->
    outlier_report h ctx
      match ctx with [] => [] | (k, b) :: _ => print_outliers h k ctx end.
  Proof.
    intros H1 H2 H3. induction ctx as [|[k b] ctx IH]; [constructor|]. cbn [print_outliers].
    replace (k >? k + 1) with false by (symmetry; rewrite Z.gtb_ltb; apply Z.ltb_ge; lia).
    rewrite andb_false_r. cbn [app].
    destruct (H1 k b (or_introl eq_refl)) as [Hk0 Hk1].
    assert (N : nth_error h (Z.to_nat k) = Some (nth (Z.to_nat k) h (PriceRecord (M := I) 0 (f32_of_Z 0) (f32_of_Z 0))))
      by (apply nth_error_nth'; lia).
    destruct ctx as [|[k' b'] ctx].
    - cbn [print_outliers]. eapply report_last; [exact N|apply outlier_line_shows].
    - assert (Hlt : k < k') by (apply (H2 0%nat 1%nat k b k' b'); auto).
      assert (R : outlier_report h ((k', b') :: ctx) (print_outliers h k' ((k', b') :: ctx))).
      { apply IH.
        - intros k0 b0 Hin. apply (H1 k0 b0). right. exact Hin.
        - intros i j k1 b1 k2 b2 Hi Hj Hij. apply (H2 (S i) (S j) k1 b1 k2 b2); auto. lia.
        - intros b0 k0 b1 Hin _ _. exfalso. destruct (In_nth_error _ _ Hin) as [n Hn].
          pose proof (H2 0%nat (S n) k b 0 b0 eq_refl Hn ltac:(lia)). lia. }
      set (tail := print_outliers h k' ((k', b') :: ctx)) in *.
      assert (P : print_outliers h k ((k', b') :: ctx)
                  = (if (k >? 0) && (k' >? k + 1) then ["   ..."%string] else []) ++ tail).
      { unfold tail. cbn [print_outliers]. replace (k' >? k' + 1) with false by (symmetry; rewrite Z.gtb_ltb; apply Z.ltb_ge; lia).
        rewrite andb_false_r. reflexivity. }
      rewrite P. destruct (Z.eq_dec k' (k + 1)) as [E|E].
      + replace (k' >? k + 1) with false by (symmetry; rewrite Z.gtb_ltb; apply Z.ltb_ge; lia). rewrite andb_false_r.
        eapply report_adjacent; [exact N|apply outlier_line_shows|exact E|exact R].
      + assert (0 < k).
        { destruct (Z.eq_dec k 0) as [->|]; [|lia]. exfalso.
          destruct (H3 b k' b' (or_introl eq_refl) (or_intror (or_introl eq_refl)) Hlt) as [b'' Hin].
          destruct Hin as [Hin|[Hin|Hin]]; [congruence|injection Hin as X _; lia|].
          destruct (In_nth_error _ _ Hin) as [n Hn].
          pose proof (H2 1%nat (S (S n)) k' b' 1 b'' eq_refl Hn ltac:(lia)). lia. }
        replace ((k >? 0) && (k' >? k + 1)) with true.
        2:{ symmetry. apply andb_true_intro. rewrite !Z.gtb_ltb, !Z.ltb_lt. lia. }
        cbn [app]. eapply report_apart; [exact N|apply outlier_line_shows|lia|exact R].
  Qed.

  (** The records removed as outliers (C34, C35) are counted, the last n of them (all of
      them if n is not positive) are shown with five records of context on either side, and
      the counts of the resampled records and ticks are right. *)
  Theorem C101_report dev n rate (h : list (@price_record I)) log ticks :
    - 2 ^ 31 <= n < 2 ^ 31 -> Z.of_nat (length h) < 2 ^ 63 ->
    ConvertPriceHistory dev n rate h = Done (log, ticks) ->
    exists mask shown lines removed last_n kept num_ticks,
      right_mask (M := I) dev h mask
      /\ log = [Info ("Removed " ++ removed ++ " outliers"); Info ("Last " ++ last_n ++ " outliers:")]%string
               ++ map Info lines
               ++ [Info ("Resampled " ++ kept ++ " records to " ++ num_ticks ++ " OHLC ticks")%string]
      /\ number removed = Some (Z.of_nat (count_occ bool_dec mask false))
      /\ number last_n = Some n
      /\ number kept = Some (Z.of_nat (count_occ bool_dec mask true))
      /\ number num_ticks = Some (Z.of_nat (length ticks))
      /\ Resample (M := I) (select mask h) rate = Done ticks
      /\ outlier_report h shown lines
      /\ (let outliers := last_outliers (Z.max 0 n) (dropped 0 mask) in
          (forall k b, In (k, b) shown <->
             (exists j, In j outliers /\ near (Z.of_nat (length h)) 5 5 j k) /\ (b = true <-> In k outliers))
          /\ (forall i j k b k' b', nth_error shown i = Some (k, b) -> nth_error shown j = Some (k', b') -> (i < j)%nat -> k < k')).
  Proof.
    intros Hn Hl. unfold ConvertPriceHistory.
    destruct (C35_outliers (M := I) dev h (Some [])) as (mask & Hm & _ & E1 & E2).
    destruct (RemoveOutliers (M := I) h dev (Some [])) as [clean idx]. cbn [fst snd app] in E1, E2. subst clean idx.
    set (ctx := GetOutlierIndicesWithContext _ _ 5 5 _). intros H.
    apply bind_done in H as (? & _ & H). apply bind_done in H as (ticks' & HR & H). injection H as <- <-.
    assert (Hin : forall j, In j (dropped 0 mask) -> 0 <= j < Z.of_nat (length h)).
    { destruct Hm as [Hm _]. rewrite <- Hm. clear. intros j Hj.
      assert (G : forall m i j, In j (dropped i m) -> i <= j < i + Z.of_nat (length m)).
      { clear. induction m as [|[] m IH]; intros i j H; cbn in H; [destruct H| |].
        - apply IH in H. cbn. lia.
        - destruct H as [<-|H]; [cbn; lia|]. apply IH in H. cbn; lia. }
      specialize (G mask 0 j Hj). lia. }
    destruct (C36_context (dropped 0 mask) (Z.of_nat (length h)) 5 5 (size_t_wrap n)) as [K1 K2]; try lia.
    { unfold size_t_wrap. apply Z.mod_pos_bound. lia. }
    { intros j Hj. specialize (Hin j Hj). lia. }
    fold ctx in K1, K2.
    assert (Esel : last_outliers (size_t_wrap n) (dropped 0 mask) = last_outliers (Z.max 0 n) (dropped 0 mask)).
    { destruct (Z_lt_le_dec n 0) as [L|L].
      - rewrite Z.max_l by lia. unfold last_outliers, size_t_wrap.
        replace (n mod 2 ^ 64) with (n + 2 ^ 64) by (rewrite <- (Z_mod_plus_full n 1), Z.mod_small; lia).
        replace (n + 2 ^ 64 =? 0) with false by (symmetry; apply Z.eqb_neq; lia). cbn [Z.eqb].
        assert (length (dropped 0 mask) <= length mask)%nat.
        { clear. generalize 0. induction mask as [|[] m IH]; intros i; cbn; [lia|specialize (IH (i + 1)); lia|specialize (IH (i+1)); lia]. }
        destruct Hm as [Hm _].
        assert (X : (length (dropped 0 mask) - Z.to_nat (n + 2 ^ 64))%nat = 0%nat) . { lia. } rewrite X. reflexivity.
      - rewrite Z.max_r by lia. unfold size_t_wrap. rewrite Z.mod_small by lia. reflexivity. }
    rewrite Esel in K1.
    exists mask, ctx, (print_outliers h 0 ctx), (count (dropped 0 mask)), (fmt_d n), (count (select mask h)), (count ticks').
    split; [exact Hm|]. split; [reflexivity|].
    split. { unfold count. rewrite number_fmt_d. do 2 f_equal. clear. generalize 0. induction mask as [|[] m IH]; intros i; cbn; auto. }
    split; [apply number_fmt_d|].
    split. { unfold count. rewrite number_fmt_d. do 2 f_equal. destruct Hm as [Hm _]. clear - Hm. revert h Hm.
      induction mask as [|[] m IH]; intros [|r h] Hm; try discriminate; cbn; auto. }
    split; [apply number_fmt_d|]. split; [exact HR|].
    split; [|split; [exact K1|exact K2]].
    pose proof (print_report h ctx) as PR.
    assert (A1 : forall k b, In (k, b) ctx -> 0 <= k < Z.of_nat (length h)).
    { intros k b Hk. apply K1 in Hk. destruct Hk as ((j & _ & Hk) & _). unfold near in Hk. lia. }
    specialize (PR A1 K2).
    assert (A3 : forall b k' b', In (0, b) ctx -> In (k', b') ctx -> 0 < k' -> exists b'', In (1, b'') ctx).
    { intros b k' b' H0 H' Hk'. specialize (A1 _ _ H'). apply K1 in H0. destruct H0 as ((j & Hj & Hnear) & _).
      assert (0 <= j) by (specialize (Hin j (last_outliers_in _ _ _ Hj)); lia).
      destruct (in_dec Z.eq_dec 1 (last_outliers (Z.max 0 n) (dropped 0 mask))) as [D|D].
      - exists true. apply K1. split; [|tauto]. exists j. split; [exact Hj|]. unfold near in *. lia.
      - exists false. apply K1. split; [|split; [discriminate|contradiction]]. exists j. split; [exact Hj|]. unfold near in *. lia. }
    specialize (PR A3). destruct ctx as [|[k b] ctx']; [exact PR|].
    cbn [print_outliers] in PR |- *.
    replace (k >? k + 1) with false in PR by (symmetry; rewrite Z.gtb_ltb; apply Z.ltb_ge; lia).
    rewrite andb_false_r in PR. exact PR.
  Qed.
End Report.

(** A history with two bad prices far apart; the last one only, and both. *)
Definition ex_prices : list (@price_record (ieee any_libm true)) :=
  map (fun k => PriceRecord (M := ieee any_libm true) (60 * Z.of_nat k)
                  (f32_of_Z (if Nat.eqb k 3 then 900 else if Nat.eqb k 18 then 1 else 100)) (f32_of_Z 1)) (seq 1 20).
Definition texts (r : outcome (list console_line * list (@ohlc_tick (ieee any_libm true)))) : list string :=
  match r with Done (log, _) => map (fun l => match l with Info s => s | Error s => s end) log | _ => [] end.
Definition max_deviation : f32 := f32_of_Z 1.
Lemma C101_ex :
  texts (ConvertPriceHistory max_deviation 0 300 ex_prices)
  = ["Removed 2 outliers"; "Last 0 outliers:";
     "   60 [1970-01-01 00:01:00]: 100.00 [1.0000]"; "   120 [1970-01-01 00:02:00]: 100.00 [1.0000]";
     " x 180 [1970-01-01 00:03:00]: 900.00 [1.0000]"; "   240 [1970-01-01 00:04:00]: 100.00 [1.0000]";
     "   300 [1970-01-01 00:05:00]: 100.00 [1.0000]"; "   360 [1970-01-01 00:06:00]: 100.00 [1.0000]";
     "   420 [1970-01-01 00:07:00]: 100.00 [1.0000]"; "   480 [1970-01-01 00:08:00]: 100.00 [1.0000]";
     "   ...";
     "   780 [1970-01-01 00:13:00]: 100.00 [1.0000]"; "   840 [1970-01-01 00:14:00]: 100.00 [1.0000]";
     "   900 [1970-01-01 00:15:00]: 100.00 [1.0000]"; "   960 [1970-01-01 00:16:00]: 100.00 [1.0000]";
     "   1020 [1970-01-01 00:17:00]: 100.00 [1.0000]"; " x 1080 [1970-01-01 00:18:00]: 1.00 [1.0000]";
     "   1140 [1970-01-01 00:19:00]: 100.00 [1.0000]"; "   1200 [1970-01-01 00:20:00]: 100.00 [1.0000]";
     "Resampled 18 records to 5 OHLC ticks"]%string
  /\ length (texts (ConvertPriceHistory max_deviation 1 300 ex_prices)) = 11%nat.
Proof. vm_compute. repeat split. Qed.
