(** Side input: construction, lookup, hint, signals. *)
From Coq Require Import ZArith Bool List Lia.
From Verif.Model Require Import Outcome Machine Types Search SideInput.
From Verif.Spec Require Import SideInputSpec.
From Verif.Proofs Require Import Base SearchProofs.
Import ListNotations.
Local Open Scope Z_scope.

Section SideInputProofs.
  Context {M : machine}.

  Definition si_of (n : Z) (h : list side_record) : side_input :=
    SideInput n (map sr_timestamp_sec h) (concat (map sr_signal h)).

  Lemma concat_app' {A} (l1 l2 : list (list A)) : concat (l1 ++ l2) = concat l1 ++ concat l2.
  Proof. apply concat_app. Qed.

  (** The constructor's loop, started after the records [pre]. *)
  Lemma step_loop n pre h prev :
    (forall r, In r h -> Z.of_nat (length (sr_signal r)) = n) ->
    (forall r, In r h -> prev < sr_timestamp_sec r) ->
    (forall i j r r', nth_error h i = Some r -> nth_error h j = Some r' ->
                      (i < j)%nat -> sr_timestamp_sec r < sr_timestamp_sec r') ->
    exists last, foldM (side_input_step n) (si_of n pre, prev) h = Done (si_of n (pre ++ h), last).
  Proof.
    revert pre prev. induction h as [|r h IH]; intros pre prev Hn Hp Hinc.
    - exists prev. cbn. rewrite app_nil_r. reflexivity.
    - cbn [foldM]. unfold side_input_step at 1.
      rewrite (proj2 (Z.eqb_eq _ _) (Hn r (or_introl eq_refl))), assert_true. cbn [bind].
      assert (Hgt : (sr_timestamp_sec r >? prev) = true).
      { rewrite Z.gtb_ltb. apply Z.ltb_lt. apply Hp. left; reflexivity. }
      rewrite Hgt, assert_true. cbn [bind].
      destruct (IH (pre ++ [r]) (sr_timestamp_sec r)) as [last E].
      + intros r' H. apply Hn. right; exact H.
      + intros r' H. apply In_nth_error in H as [j Hj].
        apply (Hinc 0%nat (S j) r r'); auto. lia.
      + intros i j r1 r2 H1 H2 Hij. apply (Hinc (S i) (S j)); auto. lia.
      + exists last. rewrite <- app_assoc in E. cbn [app] in E. rewrite <- E. f_equal. f_equal.
        unfold si_of. cbn. rewrite !map_app, concat_app. cbn. rewrite app_nil_r. reflexivity.
  Qed.

  Lemma NewSideInput_good h :
    good_side_history h ->
    exists n, NewSideInput h = Done (si_of n h) /\
              (forall r, In r h -> Z.of_nat (length (sr_signal r)) = n).
  Proof.
    intros [Hne Hpos Hinc Huni _]. destruct h as [|r h]; [contradiction|].
    set (n := Z.of_nat (length (sr_signal r))).
    assert (Hn : forall r', In r' (r :: h) -> Z.of_nat (length (sr_signal r')) = n).
    { intros r' Hr'. unfold n. f_equal. apply Huni; auto. left; reflexivity. }
    exists n. split; [|exact Hn].
    destruct (step_loop n [] (r :: h) 0 Hn Hpos Hinc) as [last E].
    unfold NewSideInput. fold n. change (SideInput n [] []) with (si_of n []).
    unfold omap. rewrite E. reflexivity.
  Qed.

  (** With asserts enabled, only good histories are accepted. *)
  Lemma step_loop_inv n pre h prev r0 :
    asserts_on = true ->
    foldM (side_input_step n) (pre, prev) h = Done r0 ->
    (forall r, In r h -> Z.of_nat (length (sr_signal r)) = n) /\
    (forall r, In r h -> prev < sr_timestamp_sec r) /\
    (forall i j r r', nth_error h i = Some r -> nth_error h j = Some r' ->
                      (i < j)%nat -> sr_timestamp_sec r < sr_timestamp_sec r').
  Proof.
    intros Hon. revert pre prev. induction h as [|r h IH]; intros pre prev H.
    - repeat split; try contradiction. intros [|i] j r r' E; discriminate.
    - cbn [foldM] in H. apply bind_done in H as ([si prev'] & H1 & H2).
      unfold side_input_step in H1. inv_done.
      apply assert_done in Hassert as [Ha|Ha]; [congruence|].
      apply assert_done in Hassert0 as [Hb|Hb]; [congruence|].
      apply Z.eqb_eq in Ha. rewrite Z.gtb_ltb in Hb. apply Z.ltb_lt in Hb.
      destruct (IH _ _ H2) as (I1 & I2 & I3).
      repeat split.
      + intros r' [<-|Hr]; auto.
      + intros r' [<-|Hr]; auto. specialize (I2 r' Hr). lia.
      + intros [|i] [|j] r1 r2 E1 E2 Hij; try lia; cbn in E1, E2.
        * injection E1 as <-. apply I2. apply nth_error_In in E2. exact E2.
        * apply (I3 i j r1 r2 E1 E2). lia.
  Qed.

  Lemma NewSideInput_accepts h si :
    asserts_on = true -> NewSideInput h = Done si -> Z.of_nat (length h) < 2 ^ 31 ->
    good_side_history h.
  Proof.
    intros Hon H Hlen. unfold NewSideInput in H. destruct h as [|r0 h]; [discriminate|].
    apply omap_done in H as ([si' last] & H & _).
    destruct (step_loop_inv _ _ _ _ _ Hon H) as (I1 & I2 & I3).
    split; auto; [discriminate|]. intros r r' Hr Hr'. apply Nat2Z.inj. rewrite (I1 r Hr), (I1 r' Hr'). reflexivity.
  Qed.

  (** *** Lookup *)
  Lemma nth_error_ts n h i : nth_error (timestamp_sec_history (si_of n h)) i = option_map sr_timestamp_sec (nth_error h i).
  Proof. apply nth_error_map. Qed.

  Lemma ts_mono h i j r r' : good_side_history h -> nth_error h i = Some r -> nth_error h j = Some r' ->
    (i <= j)%nat -> sr_timestamp_sec r <= sr_timestamp_sec r'.
  Proof.
    intros G Hi Hj Hij. destruct (Nat.eq_dec i j) as [->|Hne].
    - rewrite Hi in Hj. injection Hj as <-. lia.
    - apply Z.lt_le_incl. apply (gs_increasing h G i j); auto. lia.
  Qed.

  Lemma upper_bound_spec n h first t :
    good_side_history h -> (first <= length h)%nat ->
    let r := upper_bound_from (timestamp_sec_history (si_of n h)) first t in
    (first <= r <= length h)%nat /\
    (forall i x, nth_error h i = Some x -> (first <= i < r)%nat -> sr_timestamp_sec x <= t) /\
    (forall i x, nth_error h i = Some x -> (r <= i)%nat -> t < sr_timestamp_sec x).
  Proof.
    intros G Hf. unfold upper_bound_from.
    assert (Hlen : length (timestamp_sec_history (si_of n h)) = length h) by apply map_length.
    rewrite Hlen.
    set (go := fun i => _).
    destruct (search_spec go first (length h - first)) as (S1 & S2 & S3).
    { intros i j H1 H2 H3. unfold go. rewrite !nth_error_ts.
      destruct (nth_error h j) as [rj|] eqn:Ej; [|discriminate].
      destruct (nth_error h i) as [ri|] eqn:Ei.
      - cbn. rewrite !negb_true_iff, !Z.ltb_ge. pose proof (ts_mono h i j ri rj G Ei Ej H2). lia.
      - apply nth_error_None in Ei. assert (nth_error h j <> None) as Hs by congruence.
        apply nth_error_Some in Hs. lia. }
    cbv zeta. set (r := search go first (length h - first)) in *.
    split; [lia|]. split.
    - intros i x Hx Hi. specialize (S2 i ltac:(lia)). unfold go in S2. rewrite nth_error_ts, Hx in S2.
      cbn in S2. rewrite negb_true_iff, Z.ltb_ge in S2. exact S2.
    - intros i x Hx Hi. assert (i < length h)%nat by (apply nth_error_Some; congruence).
      specialize (S3 i ltac:(lia)). unfold go in S3. rewrite nth_error_ts, Hx in S3.
      cbn in S3. rewrite negb_false_iff, Z.ltb_lt in S3. exact S3.
  Qed.

  Lemma latest_index_unique h t i j :
    latest_index h t i -> latest_index h t j -> i = j.
  Proof.
    intros [[-> Hi]|(Hi0 & r & Hr & Hrt & Hi)] [[-> Hj]|(Hj0 & r' & Hr' & Hrt' & Hj)]; auto.
    - apply nth_error_In in Hr'. specialize (Hi r' Hr'). lia.
    - apply nth_error_In in Hr. specialize (Hj r Hr). lia.
    - destruct (lt_eq_lt_dec (Z.to_nat i) (Z.to_nat j)) as [[L|E]|L].
      + specialize (Hi _ _ Hr' L). lia.
      + lia.
      + specialize (Hj _ _ Hr L). lia.
  Qed.

  Lemma bound_latest n h t first :
    good_side_history h -> (first <= length h)%nat ->
    (forall i x, nth_error h i = Some x -> (i < first)%nat -> sr_timestamp_sec x <= t) ->
    latest_index h t (Z.of_nat (upper_bound_from (timestamp_sec_history (si_of n h)) first t) - 1).
  Proof.
    intros G Hf Hpre. destruct (upper_bound_spec n h first t G Hf) as (H1 & H2 & H3).
    set (r := upper_bound_from _ _ _) in *.
    destruct r as [|r'] eqn:Er.
    - left. split; [reflexivity|]. intros x Hx. apply In_nth_error in Hx as [i Hi].
      apply (H3 i); auto. lia.
    - right. split; [lia|]. replace (Z.to_nat (Z.of_nat (S r') - 1)) with r' by lia.
      destruct (nth_error h r') as [x|] eqn:Ex.
      + exists x. split; [reflexivity|]. split.
        * destruct (le_lt_dec first r'); [apply (H2 r'); auto; lia|apply (Hpre r'); auto].
        * intros j y Hy Hj. apply (H3 j); auto.
      + apply nth_error_None in Ex. lia.
  Qed.

  Lemma GetSideInputIndex_latest n h t :
    good_side_history h -> latest_index h t (GetSideInputIndex (si_of n h) t).
  Proof.
    intros G. unfold GetSideInputIndex. apply bound_latest; auto; [lia|]. intros; lia.
  Qed.

  Lemma at_nth n h i r :
    0 <= i -> nth_error h (Z.to_nat i) = Some r ->
    at_ (timestamp_sec_history (si_of n h)) i = Done (sr_timestamp_sec r).
  Proof.
    intros Hi H. unfold at_. rewrite (proj2 (Z.ltb_ge i 0) Hi). rewrite nth_error_ts, H. reflexivity.
  Qed.

  (** Any hint whose record is not later than t gives the right answer without an
      out-of-bounds access. *)
  Lemma Hint_latest n h t prev :
    good_side_history h ->
    (prev = -1 \/ 0 <= prev /\ exists r, nth_error h (Z.to_nat prev) = Some r /\ sr_timestamp_sec r <= t) ->
    exists i, GetSideInputIndexHint (si_of n h) t prev = Done i /\ latest_index h t i.
  Proof.
    intros G [->|(Hp & r & Hr & Hrt)].
    - exists (GetSideInputIndex (si_of n h) t). split; [reflexivity|apply GetSideInputIndex_latest; exact G].
    - unfold GetSideInputIndexHint. rewrite (proj2 (Z.ltb_ge prev 0) Hp).
      assert (Hlen : length (timestamp_sec_history (si_of n h)) = length h) by apply map_length.
      rewrite Hlen.
      assert (Hpl : (Z.to_nat prev < length h)%nat) by (apply nth_error_Some; congruence).
      pose proof (gs_int h G) as Hint.
      replace (if asserts_on then _ else Done tt) with (@Done unit tt).
      2:{ destruct asserts_on; [|reflexivity]. rewrite (at_nth n h prev r Hp Hr). cbn [bind].
          rewrite Z.geb_leb, (proj2 (Z.leb_le _ _) Hrt), assert_true. reflexivity. }
      cbn [bind].
      rewrite (Z.mod_small (Z.of_nat (length h) - 1)) by lia.
      destruct (prev =? Z.of_nat (length h) - 1) eqn:E1; cbn [bind].
      { apply Z.eqb_eq in E1. exists prev. split; [reflexivity|]. right. split; [exact Hp|].
        exists r. repeat split; auto. intros j r' Hj Hlt.
        assert (j < length h)%nat by (apply nth_error_Some; congruence). lia. }
      apply Z.eqb_neq in E1.
      destruct (nth_error h (Z.to_nat (prev + 1))) as [r1|] eqn:Hr1.
      2:{ apply nth_error_None in Hr1. lia. }
      rewrite (at_nth n h (prev + 1) r1 ltac:(lia) Hr1). cbn [bind].
      destruct (t <? sr_timestamp_sec r1) eqn:E2.
      { apply Z.ltb_lt in E2. exists prev. split; [reflexivity|]. right. split; [exact Hp|].
        exists r. repeat split; auto. intros j r' Hj Hlt.
        pose proof (ts_mono h (Z.to_nat (prev + 1)) j r1 r' G Hr1 Hj ltac:(lia)). lia. }
      apply Z.ltb_ge in E2.
      rewrite (Z.mod_small (Z.of_nat (length h) - 2)) by lia.
      destruct (prev =? Z.of_nat (length h) - 2) eqn:E3; cbn [bind].
      { apply Z.eqb_eq in E3. exists (prev + 1). split; [reflexivity|]. right. split; [lia|].
        exists r1. repeat split; auto. intros j r' Hj Hlt.
        assert (j < length h)%nat by (apply nth_error_Some; congruence). lia. }
      apply Z.eqb_neq in E3.
      destruct (nth_error h (Z.to_nat (prev + 2))) as [r2|] eqn:Hr2.
      2:{ apply nth_error_None in Hr2. lia. }
      rewrite (at_nth n h (prev + 2) r2 ltac:(lia) Hr2). cbn [bind].
      destruct (t <? sr_timestamp_sec r2) eqn:E4.
      { apply Z.ltb_lt in E4. exists (prev + 1). split; [reflexivity|]. right. split; [lia|].
        exists r1. repeat split; auto. intros j r' Hj Hlt.
        pose proof (ts_mono h (Z.to_nat (prev + 2)) j r2 r' G Hr2 Hj ltac:(lia)). lia. }
      apply Z.ltb_ge in E4.
      rewrite (proj2 (Z.ltb_ge (Z.of_nat (length h)) (prev + 2))) by lia.
      eexists. split; [reflexivity|]. apply bound_latest; auto; [lia|].
      intros i x Hx Hi. pose proof (ts_mono h i (Z.to_nat (prev + 2)) x r2 G Hx Hr2 ltac:(lia)). lia.
  Qed.

  Lemma Hint_same n h t prev :
    good_side_history h ->
    (prev = -1 \/ 0 <= prev /\ exists r, nth_error h (Z.to_nat prev) = Some r /\ sr_timestamp_sec r <= t) ->
    GetSideInputIndexHint (si_of n h) t prev = Done (GetSideInputIndex (si_of n h) t).
  Proof.
    intros G H. destruct (Hint_latest n h t prev G H) as (i & -> & Hi). f_equal.
    apply (latest_index_unique h t); auto. apply GetSideInputIndex_latest; exact G.
  Qed.

  (** *** Signals *)
  Lemma nth_concat (ls : list (list flt)) (n : nat) i l j :
    (forall l, In l ls -> length l = n) -> nth_error ls i = Some l -> (j < n)%nat ->
    nth_error (concat ls) (i * n + j) = nth_error l j.
  Proof.
    revert i. induction ls as [|l0 ls IH]; intros i Hn Hi Hj; [destruct i; discriminate|].
    pose proof (Hn l0 (or_introl eq_refl)) as H0. cbn [concat].
    destruct i as [|i]; cbn in Hi.
    - injection Hi as <-. rewrite nth_error_app1 by (cbn; lia). f_equal.
    - rewrite nth_error_app2 by (cbn; lia).
      replace (S i * n + j - length l0)%nat with (i * n + j)%nat by (cbn; lia).
      apply IH; auto. intros l' Hl'. apply Hn. right; exact Hl'.
  Qed.

  Lemma data_nth n h i r j :
    (forall r, In r h -> Z.of_nat (length (sr_signal r)) = n) ->
    nth_error h i = Some r -> (j < length (sr_signal r))%nat ->
    nth_error (data (si_of n h)) (i * length (sr_signal r) + j) = nth_error (sr_signal r) j.
  Proof.
    intros Hn Hi Hj. cbn. apply nth_concat; auto.
    - intros l Hl. apply in_map_iff in Hl as (r' & <- & Hr'). apply Nat2Z.inj.
      rewrite (Hn r' Hr'), (Hn r (nth_error_In _ _ Hi)). reflexivity.
    - rewrite nth_error_map, Hi. reflexivity.
  Qed.

  Lemma index_in_range (h : list side_record) i r : nth_error h i = Some r -> (0 <= Z.of_nat i < Z.of_nat (length h)).
  Proof. intros H. assert (i < length h)%nat by (apply nth_error_Some; congruence). lia. Qed.

  Lemma Signal_nth n h i r j x :
    (forall r, In r h -> Z.of_nat (length (sr_signal r)) = n) ->
    nth_error h i = Some r -> nth_error (sr_signal r) j = Some x ->
    GetSideInputSignal (si_of n h) (Z.of_nat i) (Z.of_nat j) = Done x.
  Proof.
    intros Hn Hi Hj. assert (Hjl : (j < length (sr_signal r))%nat) by (apply nth_error_Some; congruence).
    pose proof (Hn r (nth_error_In _ _ Hi)) as En.
    pose proof (index_in_range _ _ _ Hi) as Hr.
    unfold GetSideInputSignal, GetNumberOfRecords, GetNumberOfSignals. cbn [timestamp_sec_history si_of num_signals].
    rewrite map_length.
    replace (_ && _) with true.
    2:{ symmetry. apply andb_true_iff. rewrite Z.geb_leb. split; [apply Z.leb_le|apply Z.ltb_lt]; lia. }
    rewrite assert_true. cbn [bind].
    replace (_ && _) with true.
    2:{ symmetry. apply andb_true_iff. rewrite Z.geb_leb. split; [apply Z.leb_le|apply Z.ltb_lt]; lia. }
    rewrite assert_true. cbn [bind].
    unfold at_. rewrite (proj2 (Z.ltb_ge _ 0)) by nia.
    replace (Z.to_nat (Z.of_nat i * n + Z.of_nat j)) with (i * length (sr_signal r) + j)%nat by nia.
    rewrite (data_nth n h i r j Hn Hi Hjl), Hj. reflexivity.
  Qed.

  Lemma signals_loop_nth n h i r k :
    (forall r, In r h -> Z.of_nat (length (sr_signal r)) = n) ->
    nth_error h i = Some r -> forall j acc,
    (j + k = length (sr_signal r))%nat ->
    signals_loop (si_of n h) k (Z.of_nat i * n + Z.of_nat j) acc = Done (acc ++ skipn j (sr_signal r)).
  Proof.
    intros Hn Hi. pose proof (Hn r (nth_error_In _ _ Hi)) as En.
    induction k as [|k IH]; intros j acc Hjk; cbn [signals_loop].
    - rewrite skipn_all2 by lia. rewrite app_nil_r. reflexivity.
    - unfold at_. rewrite (proj2 (Z.ltb_ge _ 0)) by nia.
      replace (Z.to_nat (Z.of_nat i * n + Z.of_nat j)) with (i * length (sr_signal r) + j)%nat by nia.
      rewrite (data_nth n h i r j Hn Hi) by lia.
      destruct (nth_error (sr_signal r) j) as [x|] eqn:Ex.
      2:{ apply nth_error_None in Ex. lia. }
      cbn [bind]. replace (Z.of_nat i * n + Z.of_nat j + 1) with (Z.of_nat i * n + Z.of_nat (S j)) by lia.
      rewrite (IH (S j) (acc ++ [x])) by lia. f_equal. rewrite <- app_assoc. f_equal.
      clear - Ex. revert j Ex. induction (sr_signal r) as [|y l IHl]; intros [|j] Ex; try discriminate.
      + injection Ex as ->. reflexivity.
      + exact (IHl j Ex).
  Qed.

  Lemma Signals_all n h i r acc :
    (forall r, In r h -> Z.of_nat (length (sr_signal r)) = n) ->
    nth_error h i = Some r ->
    GetSideInputSignals (si_of n h) (Z.of_nat i) acc = Done (acc ++ sr_signal r).
  Proof.
    intros Hn Hi. pose proof (index_in_range _ _ _ Hi) as Hr.
    pose proof (Hn r (nth_error_In _ _ Hi)) as En.
    unfold GetSideInputSignals, GetNumberOfRecords. cbn [timestamp_sec_history si_of num_signals].
    rewrite map_length.
    replace (_ && _) with true.
    2:{ symmetry. apply andb_true_iff. rewrite Z.geb_leb. split; [apply Z.leb_le|apply Z.ltb_lt]; lia. }
    rewrite assert_true. cbn [bind].
    pose proof (signals_loop_nth n h i r (length (sr_signal r)) Hn Hi 0%nat acc eq_refl) as E.
    cbn [skipn] in E. rewrite Z.add_0_r in E. replace (Z.to_nat n) with (length (sr_signal r)) by lia. exact E.
  Qed.
End SideInputProofs.
