(** Correctness of the halving loop of std::lower_bound / std::upper_bound. *)
From Coq Require Import Arith Lia Bool.
From Verif.Model Require Import Search.

Lemma div2_lt n : Nat.div2 (S n) < S n.
Proof. apply Nat.lt_div2. lia. Qed.

Lemma search_loop_spec fuel go first len :
  len <= fuel ->
  (forall i j, first <= i -> i <= j -> j < first + len -> go j = true -> go i = true) ->
  let r := search_loop fuel go first len in
  first <= r <= first + len /\
  (forall i, first <= i < r -> go i = true) /\
  (forall i, r <= i < first + len -> go i = false).
Proof.
  revert first len. induction fuel as [|fuel IH]; intros first len Hf Hm; cbn [search_loop].
  - assert (len = 0) by lia. subst. repeat split; intros; lia.
  - destruct len as [|len'].
    + repeat split; intros; lia.
    + pose proof (div2_lt len') as Hd. set (h := Nat.div2 (S len')) in *.
      destruct (go (first + h)) eqn:E.
      * specialize (IH (S (first + h)) (S len' - h - 1) ltac:(lia)).
        destruct IH as (I1 & I2 & I3).
        { intros i j ? ? ? ?. apply (Hm i j); auto; lia. }
        cbv zeta. repeat split; try lia.
        -- intros i Hi. destruct (le_lt_dec i (first + h)).
           ++ apply (Hm i (first + h)); auto; lia.
           ++ apply I2. lia.
        -- intros i Hi. apply I3. lia.
      * specialize (IH first h ltac:(lia)).
        destruct IH as (I1 & I2 & I3).
        { intros i j ? ? ? ?. apply (Hm i j); auto; lia. }
        cbv zeta. repeat split; try lia.
        -- intros i Hi. apply I2. lia.
        -- intros i Hi. destruct (le_lt_dec (first + h) i).
           ++ destruct (go i) eqn:Ei; auto. rewrite (Hm (first + h) i) in E; auto; lia.
           ++ apply I3. lia.
Qed.

Lemma search_spec go first len :
  (forall i j, first <= i -> i <= j -> j < first + len -> go j = true -> go i = true) ->
  let r := search go first len in
  first <= r <= first + len /\
  (forall i, first <= i < r -> go i = true) /\
  (forall i, r <= i < first + len -> go i = false).
Proof. apply search_loop_spec. lia. Qed.

(** Even on unsorted data the loop stays in its range. *)
Lemma search_loop_range fuel go first len :
  first <= search_loop fuel go first len <= first + len.
Proof.
  revert first len. induction fuel as [|fuel IH]; intros first len; cbn [search_loop]; [lia|].
  destruct len as [|len']; [lia|].
  pose proof (div2_lt len') as Hd. set (h := Nat.div2 (S len')) in *.
  destruct (go (first + h)).
  - specialize (IH (S (first + h)) (S len' - h - 1)). lia.
  - specialize (IH first h). lia.
Qed.

Lemma search_range go first len : first <= search go first len <= first + len.
Proof. apply search_loop_range. Qed.
