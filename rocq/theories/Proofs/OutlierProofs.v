(** RemoveOutliers and GetOutlierIndicesWithContext. *)
From Coq Require Import ZArith Bool List Lia.
From Verif.Model Require Import Outcome Machine Types History.
From Verif.Spec Require Import SeriesSpec HistorySpec.
From Verif.Proofs Require Import Base SeriesProofs.
Import ListNotations.

Section Outliers.
  Context {M : machine} (dev : flt).

  Lemma lookahead_count prev r l la n :
    lookahead_loop (jumps_up dev prev r) (jumps_down dev prev r)
                   (toward (upper_edge dev prev r) prev) (toward (lower_edge dev prev r) prev) l la n
    = n + length (filter (confirms dev prev r) (firstn (10 - la) (filter (fun x => negb (bad_record x)) l))).
  Proof.
    revert la n. induction l as [|x l IH]; intros la n.
    - cbn [lookahead_loop filter]. rewrite firstn_nil. cbn. lia.
    - cbn [lookahead_loop filter]. unfold MAX_LOOKAHEAD.
      destruct (Nat.ltb_spec la 10) as [H|H].
      + change (malformed x) with (bad_record x). destruct (bad_record x); cbn [negb].
        * apply IH.
        * rewrite IH. replace (10 - la) with (S (10 - S la)) by lia. cbn [firstn filter].
          fold (confirms dev prev r x).
          change ((jumps_up dev prev r && fltb (toward (upper_edge dev prev r) prev) (pr_price x))
                  || (jumps_down dev prev r && fltb (pr_price x) (toward (lower_edge dev prev r) prev)))
            with (confirms dev prev r x).
          destruct (confirms dev prev r x); cbn [length]; lia.
      + replace (10 - la) with 0 by lia. cbn. lia.
  Qed.

  Lemma is_outlier_spec prev r rest : is_outlier dev prev r rest = unsupported_jump dev prev r rest.
  Proof.
    unfold is_outlier, unsupported_jump.
    change (fltb (fmul (pr_price prev) _) (pr_price r)) with (jumps_up dev prev r).
    change (fltb (pr_price r) (fdiv (pr_price prev) _)) with (jumps_down dev prev r).
    destruct (jumps_up dev prev r || jumps_down dev prev r) eqn:E; [|reflexivity].
    cbn [andb]. unfold MIN_LOOKAHEAD_PERSISTENT.
    pose proof (lookahead_count prev r rest 0 0) as H. cbn [plus Nat.sub] in H. rewrite <- H. reflexivity.
  Qed.

  (** The mask, computed left to right; [clean] newest first. *)
  Fixpoint mask_of (clean l : list price_record) : list bool :=
    match l with
    | [] => []
    | r :: rest =>
      let keep := negb (bad_record r) &&
                  match clean with [] => true | prev :: _ => negb (unsupported_jump dev prev r rest) end in
      keep :: mask_of (if keep then r :: clean else clean) rest
    end.

  Lemma loop_mask l i clean idx :
    outliers_loop dev l i clean idx
    = (rev (select (mask_of clean l) l) ++ clean,
       match idx with None => None | Some v => Some (v ++ dropped i (mask_of clean l)) end).
  Proof.
    revert i clean idx. induction l as [|r l IH]; intros i clean idx.
    - cbn. destruct idx; [rewrite app_nil_r|]; reflexivity.
    - cbn [outliers_loop mask_of]. change (malformed r) with (bad_record r).
      destruct (bad_record r); cbn [negb andb].
      + rewrite IH. cbn [select dropped]. f_equal. destruct idx; cbn [push_index]; [|reflexivity].
        rewrite <- app_assoc. reflexivity.
      + destruct clean as [|prev clean].
        * rewrite IH. cbn [select dropped rev]. rewrite <- app_assoc. reflexivity.
        * rewrite is_outlier_spec. destruct (unsupported_jump dev prev r l); cbn [negb].
          -- rewrite IH. cbn [select dropped]. f_equal. destruct idx; cbn [push_index]; [|reflexivity].
             rewrite <- app_assoc. reflexivity.
          -- rewrite IH. cbn [select dropped rev]. rewrite <- app_assoc. reflexivity.
  Qed.

  Lemma mask_length clean l : length (mask_of clean l) = length l.
  Proof. revert clean. induction l as [|r l IH]; intros clean; [reflexivity|]. cbn. rewrite IH. reflexivity. Qed.

  Lemma mask_nth l : forall clean i r, nth_error l i = Some r ->
    nth_error (mask_of clean l) i = Some
      (negb (bad_record r) &&
       match rev (select (firstn i (mask_of clean l)) (firstn i l)) ++ clean with
       | [] => true
       | prev :: _ => negb (unsupported_jump dev prev r (skipn (S i) l))
       end).
  Proof.
    induction l as [|a l IH]; intros clean i r Hi; [destruct i; discriminate|].
    destruct i as [|i].
    - cbn in Hi. injection Hi as ->. cbn. reflexivity.
    - cbn [mask_of nth_error firstn skipn]. cbn [nth_error] in Hi.
      set (keep := negb (bad_record a) && _).
      rewrite (IH (if keep then a :: clean else clean) i r Hi).
      f_equal. f_equal.
      assert (E : rev (select (firstn i (mask_of (if keep then a :: clean else clean) l)) (firstn i l)) ++ (if keep then a :: clean else clean)
             = rev (select (keep :: firstn i (mask_of (if keep then a :: clean else clean) l)) (a :: firstn i l)) ++ clean).
      { destruct keep; cbn [select rev]; [rewrite <- app_assoc; reflexivity|reflexivity]. }
      rewrite E. reflexivity.
  Qed.

  Theorem outliers_mask l :
    exists mask, right_mask dev l mask /\
      (forall idx, RemoveOutliers l dev idx
                   = (select mask l, match idx with None => None | Some v => Some (v ++ dropped 0 mask) end)).
  Proof.
    exists (mask_of [] l). split.
    - split; [apply mask_length|]. intros i r Hi. rewrite (mask_nth l [] i r Hi), app_nil_r. reflexivity.
    - intros idx. unfold RemoveOutliers. rewrite loop_mask, app_nil_r, rev_involutive. reflexivity.
  Qed.

  (** The specification determines the mask. *)
  Theorem right_mask_unique l m1 m2 : right_mask dev l m1 -> right_mask dev l m2 -> m1 = m2.
  Proof.
    intros [L1 H1] [L2 H2].
    assert (K : forall n, n <= length l -> firstn n m1 = firstn n m2).
    { induction n as [|n IH]; intros Hn; [reflexivity|].
      specialize (IH ltac:(lia)).
      destruct (nth_error l n) as [r|] eqn:E; [|apply nth_error_None in E; lia].
      specialize (H1 n r E). specialize (H2 n r E). rewrite IH in H1. rewrite <- H2 in H1. clear H2 E.
      revert H1 IH. clear. revert m1 m2. induction n as [|n IHn]; intros [|a m1] [|b m2] H IH; try discriminate; try reflexivity.
      - cbn in *. congruence.
      - cbn in *. injection IH as -> IH. f_equal. apply IHn; auto. }
    specialize (K (length l) (le_n _)). rewrite <- L1 in K at 1. rewrite <- L2, !firstn_all in K. exact K.
  Qed.

  (** Consequences of the mask. *)
  Lemma select_nth {A} mask (l : list A) x : In x (select mask l) -> exists i, nth_error mask i = Some true /\ nth_error l i = Some x.
  Proof.
    revert l. induction mask as [|b mask IH]; intros [|a l] H; try (destruct b); try destruct H.
    - exists 0. split; [reflexivity|]. cbn. congruence.
    - apply IH in H as (i & H1 & H2). exists (S i). auto.
    - apply IH in H as (i & H1 & H2). exists (S i). auto.
  Qed.

  Lemma dropped_nth mask i j : In j (dropped i mask) <-> (i <= j)%Z /\ nth_error mask (Z.to_nat (j - i)) = Some false.
  Proof.
    revert i. induction mask as [|b mask IH]; intros i.
    - cbn. split; [intros []|]. intros [_ H]. destruct (Z.to_nat (j - i)); discriminate.
    - assert (K : In j (dropped (i + 1) mask) <-> (i < j)%Z /\ nth_error (b :: mask) (Z.to_nat (j - i)) = Some false).
      { rewrite IH. split; intros [H1 H2]; (split; [lia|]).
        - replace (Z.to_nat (j - i)) with (S (Z.to_nat (j - (i + 1)))) by lia. exact H2.
        - replace (Z.to_nat (j - i)) with (S (Z.to_nat (j - (i + 1)))) in H2 by lia. exact H2. }
      cbn [dropped]. destruct b.
      + rewrite K. split; intros [H1 H2]; (split; [lia|exact H2] || idtac).
        destruct (Z.eq_dec i j) as [->|]; [rewrite Z.sub_diag in H2; discriminate|]. split; [lia|exact H2].
      + cbn [In]. rewrite K. split.
        * intros [->|[H1 H2]]; [split; [lia|rewrite Z.sub_diag; reflexivity]|split; [lia|exact H2]].
        * intros [H1 H2]. destruct (Z.eq_dec i j) as [->|]; [left; reflexivity|right; split; [lia|exact H2]].
  Qed.

  Lemma dropped_increasing mask i : forall k1 k2 a b, nth_error (dropped i mask) k1 = Some a ->
    nth_error (dropped i mask) k2 = Some b -> (k1 < k2)%nat -> (a < b)%Z.
  Proof.
    revert i. induction mask as [|c mask IH]; intros i k1 k2 a b Ha Hb Hk; [destruct k1; discriminate|].
    cbn [dropped] in *. destruct c; [apply (IH (i + 1)%Z k1 k2); auto|].
    destruct k2 as [|k2]; [lia|]. destruct k1 as [|k1].
    - cbn in Ha, Hb. injection Ha as <-. apply nth_error_In in Hb. apply dropped_nth in Hb. lia.
    - apply (IH (i + 1)%Z k1 k2); auto. lia.
  Qed.
End Outliers.

(** *** The sorted association list. *)
Section Context_.
  Local Open Scope Z_scope.

  (** Keys strictly increasing, all above lo. *)
  Fixpoint above (lo : Z) (m : list (Z * bool)) : Prop :=
    match m with
    | [] => True
    | (k, _) :: m' => lo < k /\ above k m'
    end.

  Lemma above_weaken lo lo' m : lo' <= lo -> above lo m -> above lo' m.
  Proof. destruct m as [|[k b] m]; [auto|]. cbn. intros H [H1 H2]. split; [lia|exact H2]. Qed.

  Lemma above_in lo m k b : above lo m -> In (k, b) m -> lo < k.
  Proof.
    revert lo. induction m as [|[k' b'] m IH]; intros lo H Hin; [destruct Hin|].
    destruct H as [H1 H2]. destruct Hin as [E|Hin]; [injection E as -> _; exact H1|].
    specialize (IH k' H2 Hin). lia.
  Qed.

  Definition sorted (m : list (Z * bool)) : Prop := exists lo, above lo m.

  Lemma map_upd_above m k f lo : above lo m -> lo < k -> above lo (map_upd m k f).
  Proof.
    revert lo. induction m as [|[k' b] m IH]; intros lo H Hk.
    - cbn. auto.
    - destruct H as [H1 H2]. cbn [map_upd].
      destruct (Z.ltb_spec k k'); [cbn; split; [lia|split; [lia|exact H2]]|].
      destruct (Z.eqb_spec k k'); [cbn; auto|].
      cbn [above]. split; [exact H1|]. apply IH; auto. lia.
  Qed.

  Lemma map_upd_sorted m k f : sorted m -> sorted (map_upd m k f).
  Proof.
    intros [lo H]. exists (Z.min lo (k - 1)). apply map_upd_above; [|lia]. apply (above_weaken lo); auto. lia.
  Qed.

  Lemma map_upd_in m k f lo : above lo m ->
    forall k' b', In (k', b') (map_upd m k f) <->
      (k' <> k /\ In (k', b') m) \/
      (k' = k /\ ((exists b, In (k, b) m /\ b' = f b) \/ ((forall b, ~ In (k, b) m) /\ b' = f false))).
  Proof.
    revert lo. induction m as [|[k0 b0] m IH]; intros lo H k' b'.
    - cbn. split.
      + intros [E|[]]. injection E as <- <-. right. split; [reflexivity|]. right. auto.
      + intros [[_ []]|[-> [[b [[] _]]|[_ ->]]]]. left. reflexivity.
    - destruct H as [H1 H2]. cbn [map_upd].
      assert (Hnot : forall b, k <= k0 -> ~ In (k, b) m).
      { intros b Hle Hin. apply (above_in k0) in Hin; auto; lia. }
      destruct (Z.ltb_spec k k0) as [Hlt|Hge].
      + cbn [In]. split.
        * intros [E|Hin].
          -- injection E as <- <-. right. split; [reflexivity|]. right. split; [|reflexivity].
             intros b [E|Hin]; [injection E; lia|]. apply (Hnot b); auto; lia.
          -- left. split; [|exact Hin]. intros ->. destruct Hin as [E|Hin]; [injection E; lia|].
             apply (Hnot b'); auto; lia.
        * intros [[_ Hin]|[-> [[b [Hin ->]]|[_ ->]]]].
          -- right. exact Hin.
          -- destruct Hin as [E|Hin]; [injection E; lia|]. exfalso. apply (Hnot b); auto; lia.
          -- left. reflexivity.
      + destruct (Z.eqb_spec k k0) as [->|Hne].
        * cbn [In]. split.
          -- intros [E|Hin].
             ++ injection E as <- <-. right. split; [reflexivity|]. left. exists b0. auto.
             ++ left. split; [|right; exact Hin]. intros ->. apply (Hnot b'); auto; lia.
          -- intros [[Hn [E|Hin]]|[-> [[b [Hin ->]]|[Hn ->]]]].
             ++ injection E as <- <-. contradiction.
             ++ right. exact Hin.
             ++ destruct Hin as [E|Hin]; [injection E as <-; left; reflexivity|]. exfalso. apply (Hnot b); auto; lia.
             ++ exfalso. apply (Hn b0). left. reflexivity.
        * cbn [In]. rewrite (IH k0 H2 k' b'). split.
          -- intros [E|[[Hn Hin]|[-> [[b [Hin ->]]|[Hn ->]]]]].
             ++ injection E as <- <-. left. split; [lia|]. left. reflexivity.
             ++ left. auto.
             ++ right. split; [reflexivity|]. left. exists b. auto.
             ++ right. split; [reflexivity|]. right. split; [|reflexivity].
                intros b [E|Hin]; [injection E; lia|]. apply (Hn b). exact Hin.
          -- intros [[Hn [E|Hin]]|[-> [[b [Hin ->]]|[Hn ->]]]].
             ++ left. exact E.
             ++ right. left. auto.
             ++ destruct Hin as [E|Hin]; [injection E; lia|]. right. right. split; [reflexivity|]. left. exists b. auto.
             ++ right. right. split; [reflexivity|]. right. split; [|reflexivity]. intros b Hin. apply (Hn b). right. exact Hin.
  Qed.

  (** The map seen as a set of keys with flags. *)
  Definition has (m : list (Z * bool)) (k : Z) : Prop := exists b, In (k, b) m.

  Lemma sorted_unique m k b b' : sorted m -> In (k, b) m -> In (k, b') m -> b = b'.
  Proof.
    intros [lo H]. revert lo H. induction m as [|[k0 b0] m IH]; intros lo H H1 H2; [destruct H1|].
    destruct H as [Ha Hb]. destruct H1 as [E1|H1], H2 as [E2|H2].
    - congruence.
    - injection E1 as -> ->. apply (above_in k) in H2; auto. lia.
    - injection E2 as -> ->. apply (above_in k) in H1; auto. lia.
    - apply (IH k0); auto.
  Qed.

  Lemma has_dec m k : has m k \/ (forall b, ~ In (k, b) m).
  Proof.
    induction m as [|[k0 b0] m IH]; [right; intros b []|].
    destruct (Z.eq_dec k k0) as [->|Hne]; [left; exists b0; left; reflexivity|].
    destruct IH as [[b H]|H]; [left; exists b; right; exact H|].
    right. intros b [E|Hin]; [injection E; congruence|]. apply (H b). exact Hin.
  Qed.

  Lemma upd_or_false m k : sorted m -> forall k' b',
    In (k', b') (map_upd m k (fun b => b || false)) <->
    In (k', b') m \/ (k' = k /\ b' = false /\ ~ has m k).
  Proof.
    intros [lo H] k' b'. rewrite (map_upd_in m k _ lo H). split.
    - intros [[Hn Hin]|[-> [[b [Hin ->]]|[Hn ->]]]].
      + left. exact Hin.
      + left. rewrite orb_false_r. exact Hin.
      + right. split; [reflexivity|]. split; [reflexivity|]. intros [b Hb]. apply (Hn b). exact Hb.
    - intros [Hin|(-> & -> & Hn)].
      + destruct (Z.eq_dec k' k) as [->|Hne]; [right|left; auto]. split; [reflexivity|]. left. exists b'.
        rewrite orb_false_r. auto.
      + right. split; [reflexivity|]. right. split; [|reflexivity]. intros b Hb. apply Hn. exists b. exact Hb.
  Qed.

  Lemma context_loop_spec n a m : sorted m ->
    sorted (context_loop n a m) /\
    forall k b, In (k, b) (context_loop n a m) <->
      In (k, b) m \/ (b = false /\ ~ has m k /\ a <= k < a + Z.of_nat n).
  Proof.
    revert a m. induction n as [|n IH]; intros a m Hs; cbn [context_loop].
    - split; [exact Hs|]. intros k b. split; [auto|]. intros [H|(_ & _ & H)]; [exact H|lia].
    - destruct (IH (a + 1) (map_upd m a (fun b => b || false)) (map_upd_sorted _ _ _ Hs)) as [I1 I2].
      split; [exact I1|]. intros k b. rewrite I2. pose proof (upd_or_false m a Hs) as U.
      assert (Hhas : forall k, has (map_upd m a (fun b => b || false)) k <-> has m k \/ k = a).
      { intros k0. split.
        - intros [b0 Hb]. apply U in Hb as [Hb|(-> & _)]; [left; exists b0; exact Hb|right; reflexivity].
        - intros [[b0 Hb]| ->]; [exists b0; apply U; left; exact Hb|].
          destruct (has_dec m a) as [[b0 Hb]|Hn]; [exists b0; apply U; auto|].
          exists false. apply U. right. split; [reflexivity|]. split; [reflexivity|]. intros [b1 Hb]. apply (Hn b1 Hb). }
      rewrite U, Hhas. split.
      + intros [[H|(-> & -> & H)]|(-> & H1 & H2)].
        * left. exact H.
        * right. split; [reflexivity|]. split; [exact H|lia].
        * right. split; [reflexivity|]. split; [tauto|lia].
      + intros [H|(-> & H1 & H2)]; [left; left; exact H|].
        destruct (Z.eq_dec k a) as [->|Hne]; [left; right; auto|]. right. split; [reflexivity|]. split; [tauto|lia].
  Qed.

  (** The loop over the selected outliers. *)
  Lemma outlier_context_spec l size left right m :
    0 <= size -> 0 <= left -> 0 <= right ->
    (forall j, In j l -> 0 <= j < size /\ j + right + 1 < 2 ^ 64) -> sorted m ->
    sorted (outlier_context_loop l size left right m) /\
    forall k b, In (k, b) (outlier_context_loop l size left right m) <->
      (In k l /\ b = true) \/
      (~ In k l /\ (In (k, b) m \/ (b = false /\ ~ has m k /\ exists j, In j l /\ near size left right j k))).
  Proof.
    intros Hs0 Hl Hr. revert m. induction l as [|j l IH]; intros m Hj Hs.
    - cbn. split; [exact Hs|]. intros k b. split; [auto|].
      intros [[[] _]|[_ [H|(_ & _ & x & [] & _)]]]. exact H.
    - cbn [outlier_context_loop]. destruct (Hj j (or_introl eq_refl)) as [Hj1 Hj2].
      set (a := if j <=? left then 0 else j - left).
      assert (Ha : a = Z.max 0 (j - left)) by (unfold a; destruct (Z.leb_spec j left); lia).
      unfold size_t_wrap. rewrite Z.mod_small by lia.
      set (e := Z.min (j + right + 1) size).
      destruct (context_loop_spec (Z.to_nat (e - a)) a m Hs) as [C1 C2].
      set (m1 := context_loop (Z.to_nat (e - a)) a m) in *.
      destruct (IH (map_upd m1 j (fun _ => true))) as [I1 I2].
      { intros. apply Hj. right. assumption. }
      { apply map_upd_sorted. exact C1. }
      split; [exact I1|]. intros k b. rewrite I2.
      destruct C1 as [lo C1']. pose proof (map_upd_in m1 j (fun _ => true) lo C1') as U.
      assert (Ux : forall k b, In (k, b) (map_upd m1 j (fun _ => true)) <-> (k <> j /\ In (k, b) m1) \/ (k = j /\ b = true)).
      { intros k0 b0. rewrite U. split.
        - intros [[H1 H2]|[-> [[b1 [H1 ->]]|[H1 ->]]]]; auto.
        - intros [H|[-> ->]]; [left; exact H|]. right. split; [reflexivity|].
          destruct (has_dec m1 j) as [[b1 H]|H]; [left; exists b1; auto|right; auto]. }
      assert (Hrange : forall k, a <= k < a + Z.of_nat (Z.to_nat (e - a)) <-> near size left right j k).
      { intros k0. unfold near. rewrite Ha. unfold e. lia. }
      assert (Ex : forall k b, In (k, b) (map_upd m1 j (fun _ => true)) <->
                (k = j /\ b = true) \/ (k <> j /\ (In (k, b) m \/ (b = false /\ ~ has m k /\ near size left right j k)))).
      { intros k0 b0. rewrite Ux, C2, Hrange. tauto. }
      assert (Hhas : forall k, has (map_upd m1 j (fun _ => true)) k <-> k = j \/ has m k \/ near size left right j k).
      { intros k0. unfold has. split.
        - intros [b0 H]. apply Ex in H as [[H _]|[Hne [H|(_ & _ & H)]]]; [left; exact H|right; left; exists b0; exact H|right; right; exact H].
        - intros H. destruct (Z.eq_dec k0 j) as [->|Hne]; [exists true; apply Ex; left; auto|].
          destruct (has_dec m k0) as [[b0 Hb]|Hn]; [exists b0; apply Ex; right; auto|].
          destruct H as [H|[[b0 H]|H]]; [contradiction|exfalso; apply (Hn b0 H)|].
          exists false. apply Ex. right. split; [exact Hne|]. right. split; [reflexivity|]. split; [|exact H].
          intros [b0 Hb]. apply (Hn b0 Hb). }
      rewrite Ex, Hhas. cbn [In].
      destruct (in_dec Z.eq_dec k l) as [Hin|Hin].
      { split; [intros [[_ ->]|[Hn _]]; [left; auto|contradiction]|].
        intros [[_ ->]|[Hn _]]; [left; auto|tauto]. }
      destruct (Z.eq_dec k j) as [->|Hne].
      { split.
        - intros [[? _]|[_ [[[_ ->]|[? _]]|(_ & Hn & _)]]]; try contradiction; [left; auto|tauto].
        - intros [[_ ->]|[Hn _]]; [right; split; [exact Hin|]; left; left; auto|tauto]. }
      assert (Hdec : near size left right j k \/ ~ near size left right j k) by (unfold near; lia).
      split.
      + intros [[? _]|[_ [[[? _]|[_ [H|(-> & H1 & H2)]]]|(-> & H1 & x & H2 & H3)]]]; try contradiction.
        * right. split; [intros [E|?]; [congruence|contradiction]|]. left. exact H.
        * right. split; [intros [E|?]; [congruence|contradiction]|]. right. split; [reflexivity|]. split; [exact H1|].
          exists j. auto.
        * right. split; [intros [E|?]; [congruence|contradiction]|]. right. split; [reflexivity|]. split; [tauto|].
          exists x. auto.
      + intros [[[E|?] _]|[_ [H|(-> & H1 & x & [<-|H2] & H3)]]]; try contradiction; [congruence| | |].
        * right. split; [exact Hin|]. left. right. auto.
        * right. split; [exact Hin|]. left. right. split; [exact Hne|]. right. auto.
        * right. split; [exact Hin|]. destruct Hdec as [Hd|Hd].
          -- left. right. split; [exact Hne|]. right. auto.
          -- right. split; [reflexivity|]. split; [tauto|]. exists x. auto.
  Qed.

  Theorem context_spec outliers size left right n :
    0 <= size -> 0 <= left -> 0 <= right -> 0 <= n ->
    (forall j, In j outliers -> 0 <= j < size /\ j + right + 1 < 2 ^ 64) ->
    let m := GetOutlierIndicesWithContext outliers size left right n in
    let sel := last_outliers n outliers in
    sorted m /\
    forall k b, In (k, b) m <->
      (exists j, In j sel /\ near size left right j k) /\ (b = true <-> In k sel).
  Proof.
    intros Hs Hl Hr Hn Hj. cbv zeta. unfold GetOutlierIndicesWithContext, last_outliers.
    replace (skipn (Z.to_nat (if (n =? 0) || (Z.of_nat (length outliers) <=? n) then 0 else Z.of_nat (length outliers) - n)) outliers)
      with (if n =? 0 then outliers else skipn (length outliers - Z.to_nat n) outliers).
    2:{ destruct (Z.eqb_spec n 0); [reflexivity|]. cbn [orb].
        destruct (Z.leb_spec (Z.of_nat (length outliers)) n).
        - replace (length outliers - Z.to_nat n)%nat with 0%nat by lia. reflexivity.
        - f_equal. lia. }
    set (sel := if n =? 0 then outliers else skipn (length outliers - Z.to_nat n) outliers).
    assert (Hsel : forall j, In j sel -> In j outliers).
    { unfold sel. destruct (n =? 0); auto. intros j Hj'. rewrite <- (firstn_skipn (length outliers - Z.to_nat n) outliers).
      apply in_or_app. right. exact Hj'. }
    destruct (outlier_context_spec sel size left right [] Hs Hl Hr) as [S1 S2].
    { intros j Hj'. apply Hj. apply Hsel. exact Hj'. }
    { exists 0. exact I. }
    split; [exact S1|]. intros k b. rewrite S2. split.
    - intros [[H1 ->]|[H1 [[]|(-> & _ & H2)]]].
      + split; [|tauto]. exists k. split; [exact H1|]. destruct (Hj k (Hsel k H1)). unfold near. lia.
      + split; [exact H2|]. split; [discriminate|contradiction].
    - intros [H1 H2]. destruct (in_dec Z.eq_dec k sel) as [Hin|Hin].
      + left. split; [exact Hin|]. apply H2. exact Hin.
      + right. split; [exact Hin|]. right. split; [|split; [intros [b0 []]|exact H1]].
        destruct b; [exfalso; apply Hin; apply H2; reflexivity|reflexivity].
  Qed.
End Context_.
