(** GetPriceHistoryGaps keeps the longest gaps. *)
From Coq Require Import ZArith Bool List Lia Permutation.
From Verif.Model Require Import Outcome Machine Types Search History.
From Verif.Spec Require Import SeriesSpec HistorySpec.
From Verif.Proofs Require Import Base.
Import ListNotations.
Local Open Scope Z_scope.

Lemma cmp_false a b : gap_cmp a b = false <-> preferred b a.
Proof.
  unfold gap_cmp, preferred, gap_length. rewrite orb_false_iff, andb_false_iff.
  rewrite Z.gtb_ltb, Z.ltb_ge, Z.eqb_neq, Z.ltb_ge. lia.
Qed.

Lemma preferred_trans a b c : preferred a b -> preferred b c -> preferred a c.
Proof. unfold preferred. lia. Qed.
Lemma preferred_refl a : preferred a a.
Proof. unfold preferred. lia. Qed.
Lemma preferred_total a b : preferred a b \/ preferred b a.
Proof. unfold preferred. lia. Qed.

Lemma top_from_spec best q :
  In (pq_top_from best q) (best :: q) /\ forall x, In x (best :: q) -> preferred x (pq_top_from best q).
Proof.
  revert best. induction q as [|g q IH]; intros best; cbn [pq_top_from].
  - split; [left; reflexivity|]. intros x [->|[]]. apply preferred_refl.
  - destruct (gap_cmp best g) eqn:E.
    + destruct (IH g) as [I1 I2]. split.
      * destruct I1 as [I1|I1]; [right; left; exact I1|right; right; exact I1].
      * intros x [->|[->|Hx]].
        -- apply (preferred_trans _ g); [|apply I2; left; reflexivity].
           destruct (preferred_total x g) as [H|H]; [exact H|]. apply cmp_false in H. congruence.
        -- apply I2. left. reflexivity.
        -- apply I2. right. exact Hx.
    + apply cmp_false in E. destruct (IH best) as [I1 I2]. split.
      * destruct I1 as [I1|I1]; [left; exact I1|right; right; exact I1].
      * intros x [->|[->|Hx]].
        -- apply I2. left. reflexivity.
        -- apply (preferred_trans _ best); [exact E|]. apply I2. left. reflexivity.
        -- apply I2. right. exact Hx.
Qed.

Lemma remove_perm g q : In g q -> Permutation q (g :: pq_remove g q).
Proof.
  induction q as [|x q IH]; intros H; [destruct H|]. cbn [pq_remove].
  unfold gap_eqb. destruct (Z.eqb_spec (fst x) (fst g)) as [E1|N1]; cbn [andb].
  - destruct (Z.eqb_spec (snd x) (snd g)) as [E2|N2].
    + assert (x = g) as -> by (destruct x, g; cbn in *; congruence). reflexivity.
    + destruct H as [->|H]; [congruence|]. rewrite (IH H) at 1. apply perm_swap.
  - destruct H as [->|H]; [congruence|]. rewrite (IH H) at 1. apply perm_swap.
Qed.

Lemma pop_perm q : q <> [] -> exists t, Permutation q (t :: pq_pop q) /\ pq_top q = Some t /\
  forall x, In x q -> preferred x t.
Proof.
  destruct q as [|g q]; [congruence|]. intros _. unfold pq_pop. cbn [pq_top].
  exists (pq_top_from g q). destruct (top_from_spec g q) as [H1 H2].
  split; [apply remove_perm; exact H1|]. split; [reflexivity|exact H2].
Qed.

(** q holds the best gaps of gs. *)
Definition best (n : nat) (gs q : list (Z * Z)) : Prop :=
  exists rest, Permutation (q ++ rest) gs /\ length q = Nat.min n (length gs) /\
    forall g h, In g q -> In h rest -> preferred g h.

Lemma best_push n gs q g : best n gs q -> best n (gs ++ [g]) (pq_trim n (pq_push q g)).
Proof.
  intros (rest & P & L & B). unfold pq_trim, pq_push.
  assert (Lg : (length gs = length q + length rest)%nat) by (rewrite <- (Permutation_length P), app_length; reflexivity).
  change (length (g :: q)) with (S (length q)).
  destruct (Nat.ltb_spec n (S (length q))) as [Hlt|Hge].
  - destruct (pop_perm (g :: q)) as (t & Pt & _ & Ht); [discriminate|].
    exists (t :: rest). pose proof (Permutation_length Pt) as Lt. cbn [length] in Lt. unfold history_gap in *.
    split; [|split].
    + transitivity ((t :: pq_pop (g :: q)) ++ rest); [symmetry; apply Permutation_middle|].
      transitivity ((g :: q) ++ rest); [apply Permutation_app_tail; symmetry; exact Pt|].
      cbn [app]. transitivity (g :: gs); [apply perm_skip; exact P|apply Permutation_cons_append].
    + rewrite app_length. cbn [length]. lia.
    + intros x y Hx [<-|Hy].
      * apply Ht. apply (Permutation_in x (Permutation_sym Pt)). right. exact Hx.
      * assert (In x (g :: q)) as [<-|Hq] by (apply (Permutation_in x (Permutation_sym Pt)); right; exact Hx).
        -- (* g survived, so some element of q was at most as good *)
           assert (Hin : In t (g :: q)) by (apply (Permutation_in t (Permutation_sym Pt)); left; reflexivity).
           destruct Hin as [<-|Hin].
           ++ (* top = g: g still in queue means an equal element of q *)
              assert (Hq : In g q).
              { apply Permutation_cons_inv in Pt. apply (Permutation_in g (Permutation_sym Pt)). exact Hx. }
              apply B; auto.
           ++ apply (preferred_trans _ t); [apply Ht; left; reflexivity|apply B; auto].
        -- apply B; auto.
  - exists rest. split; [|split].
    + cbn [app]. rewrite P. apply Permutation_cons_append.
    + cbn [length]. rewrite app_length. cbn [length]. lia.
    + intros x y [<-|Hx] Hy; [|apply B; auto].
      assert (rest = []) as -> by (destruct rest; [reflexivity|cbn in Lg; lia]). destruct Hy.
Qed.

Section Loop.
  Context {M : machine}.

  Lemma gaps_loop_spec n l : forall prev q gs, best n gs q ->
    let '(prev', q') := gaps_loop n prev l q in
    prev' = (match rev l with [] => prev | r :: _ => Some r end) /\
    best n (gs ++ consecutive (match prev with Some r => [pr_timestamp_sec r] | None => [] end ++ map pr_timestamp_sec l)) q'.
  Proof.
    induction l as [|r l IH]; intros prev q gs B; cbn [gaps_loop].
    - split; [reflexivity|]. destruct prev; cbn; rewrite app_nil_r; exact B.
    - destruct prev as [p|].
      + specialize (IH (Some r) (pq_trim n (pq_push q (pr_timestamp_sec p, pr_timestamp_sec r)))
                       (gs ++ [(pr_timestamp_sec p, pr_timestamp_sec r)]) (best_push _ _ _ _ B)).
        destruct (gaps_loop n (Some r) l _) as [prev' q']. destruct IH as [I1 I2]. split.
        * rewrite I1. cbn [rev]. destruct (rev l); reflexivity.
        * rewrite <- app_assoc in I2. exact I2.
      + specialize (IH (Some r) q gs B).
        destruct (gaps_loop n (Some r) l _) as [prev' q']. destruct IH as [I1 I2]. split.
        * rewrite I1. cbn [rev]. destruct (rev l); reflexivity.
        * exact I2.
  Qed.
End Loop.

Lemma drain_perm q : Permutation (pq_drain (length q) q) q.
Proof.
  remember (length q) as n eqn:E. revert q E. induction n as [|n IH]; intros q E.
  - destruct q; [reflexivity|discriminate].
  - destruct (pop_perm q) as (t & P & T & _); [intros ->; discriminate|].
    cbn [pq_drain]. rewrite T. pose proof (Permutation_length P) as L. cbn in L.
    rewrite (IH (pq_pop q)) by lia. symmetry. exact P.
Qed.

Lemma insert_perm g l : Permutation (gap_insert g l) (g :: l).
Proof.
  induction l as [|x l IH]; [reflexivity|]. cbn [gap_insert]. destruct (gap_leb g x); [reflexivity|].
  rewrite IH. apply perm_swap.
Qed.

Lemma sort_perm l : Permutation (gap_sort l) l.
Proof.
  induction l as [|x l IH]; [reflexivity|]. cbn [gap_sort fold_right]. rewrite insert_perm.
  apply perm_skip. exact IH.
Qed.

Definition gle (g h : Z * Z) : Prop := fst g < fst h \/ (fst g = fst h /\ snd g <= snd h).

Lemma leb_gle a b : gap_leb a b = true <-> gle a b.
Proof. unfold gap_leb, gle. rewrite orb_true_iff, andb_true_iff, Z.ltb_lt, Z.eqb_eq, Z.leb_le. tauto. Qed.

Fixpoint lex_sorted (l : list (Z * Z)) : Prop :=
  match l with [] => True | g :: l' => Forall (gle g) l' /\ lex_sorted l' end.

Lemma insert_sorted g l : lex_sorted l -> lex_sorted (gap_insert g l).
Proof.
  induction l as [|x l IH]; intros H; [cbn; auto|]. cbn [gap_insert]. destruct H as [H1 H2].
  destruct (gap_leb g x) eqn:E.
  - apply leb_gle in E. cbn [lex_sorted]. split; [|split; assumption]. constructor; [exact E|].
    eapply Forall_impl; [|exact H1]. unfold gle in *. intros. lia.
  - assert (E' : gle x g).
    { destruct (gap_leb g x) eqn:E2; [discriminate|]. assert (~ gle g x) by (rewrite <- leb_gle; congruence).
      unfold gle in *. lia. }
    cbn [lex_sorted]. split; [|apply IH; exact H2].
    rewrite Forall_forall in *. intros y Hy. apply (Permutation_in y (insert_perm g l)) in Hy as [<-|Hy]; auto.
Qed.

Lemma sort_chronological l : chronological (gap_sort l).
Proof.
  assert (S : lex_sorted (gap_sort l)).
  { induction l as [|x l IH]; [exact I|]. apply insert_sorted. exact IH. }
  unfold chronological. generalize dependent (gap_sort l). clear l.
  intros l S. induction l as [|x l IH]; intros i j g h Hi Hj Hlt; [destruct i; discriminate|].
  destruct S as [S1 S2]. destruct j as [|j]; [lia|]. cbn in Hj. destruct i as [|i]; cbn in Hi.
  - injection Hi as <-. rewrite Forall_forall in S1. apply (S1 h). eapply nth_error_In; eauto.
  - apply (IH S2 i j); auto. lia.
Qed.

Section Gaps.
  Context {M : machine}.

  Lemma rev_last (l : list price_record) r0 rest r : rev (r0 :: rest) = r :: l -> pr_timestamp_sec r = last (map pr_timestamp_sec (r0 :: rest)) (pr_timestamp_sec r0).
  Proof.
    intros H. assert (E : r0 :: rest = rev l ++ [r]).
    { rewrite <- (rev_involutive (r0 :: rest)), H. reflexivity. }
    rewrite E, map_app. cbn [map]. rewrite last_last. reflexivity.
  Qed.

  Theorem gaps_spec l start end_ n :
    (0 < n)%nat ->
    let out := GetPriceHistoryGaps l start end_ n in
    let all := all_gaps (map pr_timestamp_sec l) start end_ in
    exists rest, Permutation (out ++ rest) all /\ length out = Nat.min n (length all) /\
      chronological out /\ forall g h, In g out -> In h rest -> preferred g h.
  Proof.
    intros Hn. cbv zeta. unfold GetPriceHistoryGaps. destruct l as [|r0 l].
    - exists []. split; [reflexivity|]. split; [cbn; lia|]. split; [intros [|i] j g h H; discriminate|]. intros g h [].
    - set (gs0 := if 0 <? start then [(start, pr_timestamp_sec r0)] else []).
      set (q0 := if start >? 0 then _ else _).
      assert (B0 : best n gs0 q0).
      { unfold q0, gs0. rewrite Z.gtb_ltb. destruct (0 <? start).
        - exists []. split; [reflexivity|]. split; [cbn; lia|]. intros ? ? ? [].
        - exists []. split; [reflexivity|]. split; [cbn; lia|]. intros ? ? ? []. }
      pose proof (gaps_loop_spec n (r0 :: l) None q0 gs0 B0) as H.
      destruct (gaps_loop n None (r0 :: l) q0) as [prev q1]. destruct H as [Hp B1].
      destruct (rev (r0 :: l)) as [|r rl] eqn:Er.
      { apply (f_equal (@length _)) in Er. rewrite rev_length in Er. discriminate. }
      subst prev. apply rev_last in Er. cbn [app] in B1.
      set (q2 := if end_ >? 0 then _ else _).
      assert (B2 : best n (all_gaps (map pr_timestamp_sec (r0 :: l)) start end_) q2).
      { unfold all_gaps. cbn [map]. fold gs0. unfold q2. rewrite Z.gtb_ltb. destruct (0 <? end_).
        - rewrite app_assoc. cbn [map] in Er. rewrite <- Er. apply best_push. exact B1.
        - rewrite app_nil_r. exact B1. }
      destruct B2 as (rest & P & L & B). exists rest.
      assert (Q : Permutation (gap_sort (pq_drain (length q2) q2)) q2) by (rewrite sort_perm; apply drain_perm).
      split; [rewrite Q; exact P|]. split; [rewrite (Permutation_length Q); exact L|].
      split; [apply sort_chronological|]. intros g h Hg Hh. apply B; auto. apply (Permutation_in g Q). exact Hg.
  Qed.

  (** A request for no gaps. *)
  Theorem gaps_zero l start end_ : start <= 0 -> GetPriceHistoryGaps l start end_ 0 = [].
  Proof.
    intros Hs. unfold GetPriceHistoryGaps. destruct l as [|r0 l]; [reflexivity|].
    rewrite Z.gtb_ltb. destruct (Z.ltb_spec 0 start); [lia|].
    assert (K : forall l prev, gaps_loop 0 prev l [] = (match rev l with [] => prev | r :: _ => Some r end, [])).
    { clear. induction l as [|r l IH]; intros prev; [reflexivity|]. cbn [gaps_loop].
      assert (E : match prev with Some p => pq_trim 0 (pq_push [] (pr_timestamp_sec p, pr_timestamp_sec r)) | None => [] end = []).
      { destruct prev as [p|]; [|reflexivity]. unfold pq_trim, pq_push. cbn. unfold pq_pop. cbn.
        unfold gap_eqb. rewrite !Z.eqb_refl. reflexivity. }
      rewrite E, IH. f_equal. cbn [rev]. destruct (rev l); reflexivity. }
    rewrite K. destruct (end_ >? 0); [|reflexivity].
    destruct (rev (r0 :: l)) as [|p q]; [reflexivity|].
    assert (E : pq_trim 0 (pq_push [] (pr_timestamp_sec p, end_)) = []).
    { unfold pq_trim, pq_push. cbn. unfold pq_pop. cbn. unfold gap_eqb. cbn. rewrite !Z.eqb_refl. reflexivity. }
    rewrite E. reflexivity.
  Qed.

  (** With a positive start the code reports one gap although none was asked for. *)
  Theorem gaps_zero_start r0 l start end_ : 0 < start -> length (GetPriceHistoryGaps (r0 :: l) start end_ 0) = 1%nat.
  Proof.
    intros Hs. unfold GetPriceHistoryGaps. rewrite Z.gtb_ltb. destruct (Z.ltb_spec 0 start); [|lia].
    assert (T : forall q g, length q = 1%nat -> length (pq_trim 0 (pq_push q g)) = 1%nat).
    { intros q g Hq. unfold pq_trim, pq_push. cbn [length Nat.ltb Nat.leb].
      destruct (pop_perm (g :: q)) as (t & P & _); [discriminate|]. apply Permutation_length in P. cbn [length] in P. unfold history_gap in *. lia. }
    assert (K : forall l prev q, length q = 1%nat -> length (snd (gaps_loop 0 prev l q)) = 1%nat).
    { clear - T. induction l as [|r l IH]; intros prev q Hq; [exact Hq|]. cbn [gaps_loop]. apply IH.
      destruct prev; [apply T|]; exact Hq. }
    specialize (K (r0 :: l) None (pq_push [] (start, pr_timestamp_sec r0)) eq_refl).
    destruct (gaps_loop 0 None (r0 :: l) _) as [prev q1]. cbn [snd] in K.
    rewrite (Permutation_length (sort_perm _)), (Permutation_length (drain_perm _)).
    destruct (end_ >? 0); [|exact K]. destruct prev; [apply T|]; exact K.
  Qed.
End Gaps.
