(** The sliding minimum: the monotone deque holds the suffix minima of the last values. *)
From Coq Require Import Reals ZArith Bool List Lia Lra.
From Flocq Require Import Core.
From Verif.Model Require Import Outcome Machine Types Indicators.
From Verif.Spec Require Import SeriesSpec IndicatorSpec.
From Verif.Proofs Require Import Base SeriesProofs LastNProofs OrderLaws HelperProofs.
Import ListNotations.

Section Min.
  Context {M : machine} (O : real_order M).
  Notation num := (num O). Notation val := (val O).

  (** The elements smaller than everything after them. *)
  Fixpoint sufmin (l : list (flt * Z)) : list (flt * Z) :=
    match l with
    | [] => []
    | x :: r => if forallb (fun y => fltb (fst x) (fst y)) r then x :: sufmin r else sufmin r
    end.

  Lemma sufmin_in x l : In x (sufmin l) -> In x l.
  Proof.
    induction l as [|a l IH]; cbn; auto. destruct (forallb _ l); cbn; tauto.
  Qed.

  Lemma sufmin_snoc l y : sufmin (l ++ [y]) = filter (fun x => fltb (fst x) (fst y)) (sufmin l) ++ [y].
  Proof.
    induction l as [|a l IH]; [reflexivity|]. cbn [app sufmin]. rewrite forallb_app. cbn [forallb]. rewrite andb_true_r.
    destruct (forallb (fun z => fltb (fst a) (fst z)) l) eqn:E; cbn [andb].
    - cbn [filter]. destruct (fltb (fst a) (fst y)); cbn [app]; rewrite IH; reflexivity.
    - exact IH.
  Qed.

  (** Increasing lists. *)
  Fixpoint inc (l : list (flt * Z)) : Prop :=
    match l with
    | [] => True
    | x :: r => (forall y, In y r -> fltb (fst x) (fst y) = true) /\ inc r
    end.

  Lemma sufmin_inc l : inc (sufmin l).
  Proof.
    induction l as [|a l IH]; cbn; auto. destruct (forallb (fun z => fltb (fst a) (fst z)) l) eqn:E; auto.
    cbn. split; auto. intros y Hy. rewrite forallb_forall in E. apply E. apply sufmin_in. exact Hy.
  Qed.

  Lemma inc_snoc l y : inc (l ++ [y]) -> inc l /\ forall x, In x l -> fltb (fst x) (fst y) = true.
  Proof.
    induction l as [|a l IH]; cbn; [tauto|]. intros (H1 & H2). apply IH in H2 as [H2 H3]. split.
    - split; auto. intros z Hz. apply H1. apply in_or_app. auto.
    - intros x [<-|Hx]; auto. apply H1. apply in_or_app. right. left. reflexivity.
  Qed.

  Lemma ltb_leb_false x y : num x = true -> num y = true -> fleb y x = negb (fltb x y).
  Proof.
    intros Hx Hy. rewrite (val_leb M O), (val_ltb M O) by auto.
    destruct (Rlt_bool_spec (val x) (val y)), (Rle_bool_spec (val y) (val x)); cbn; auto; lra.
  Qed.

  Lemma ltb_trans x y z : fltb x y = true -> fltb y z = true -> fltb x z = true.
  Proof.
    intros H1 H2. destruct (ltb_num M O _ _ H1), (ltb_num M O _ _ H2).
    apply (ltb_spec O) in H1; auto. apply (ltb_spec O) in H2; auto. apply (ltb_spec O); auto. lra.
  Qed.

  Lemma pop_back_filter v w : num v = true -> (forall x, In x w -> num (fst x) = true) -> inc w ->
    pop_back_loop v (rev w) = rev (filter (fun x => fltb (fst x) v) w).
  Proof.
    intros Hv. induction w as [|[y i] w IH] using rev_ind; intros Hw Hi; [reflexivity|].
    rewrite rev_app_distr. cbn [rev app pop_back_loop].
    assert (Hy : num y = true) by (apply (Hw (y, i)); apply in_or_app; right; left; reflexivity).
    apply inc_snoc in Hi as [Hi Hall]. cbn [fst] in Hall. rewrite ltb_leb_false by auto.
    destruct (fltb y v) eqn:E; cbn [negb].
    - rewrite filter_all; [rewrite rev_app_distr; reflexivity|].
      intros x Hx. apply in_app_or in Hx as [Hx|[<-|[]]]; [|exact E]. eapply ltb_trans; eauto.
    - rewrite IH; auto; [|intros x Hx; apply Hw; apply in_or_app; auto].
      rewrite filter_app. cbn [filter fst]. rewrite E, app_nil_r. reflexivity.
  Qed.

  Lemma pop_front_keep num size l : l <> [] ->
    (forall x, In x l -> (num - snd x + 1 < size)%Z) -> pop_front_loop num size l = Done l.
  Proof.
    destruct l as [|[x i] l]; [congruence|]. intros _ H. cbn [pop_front_loop].
    rewrite (proj2 (Z.leb_gt _ _)); auto. apply (H (x, i)). left. reflexivity.
  Qed.

  Lemma sufmin_nonempty l : l <> [] -> sufmin l <> [].
  Proof.
    induction l as [|a l IH]; [congruence|]. intros _. cbn [sufmin].
    destruct (forallb _ l) eqn:E; [discriminate|]. apply IH. intros ->. discriminate.
  Qed.

  Lemma pop_front_one num size a l : l <> [] ->
    (size <= num - snd a + 1)%Z -> (forall x, In x l -> (num - snd x + 1 < size)%Z) ->
    pop_front_loop num size (sufmin (a :: l)) = Done (sufmin l).
  Proof.
    intros Hl Ha H. destruct a as [a i]. cbn [snd sufmin fst] in *.
    assert (K : pop_front_loop num size (sufmin l) = Done (sufmin l)).
    { apply pop_front_keep; [apply sufmin_nonempty; exact Hl|]. intros x Hx. apply H. apply sufmin_in. exact Hx. }
    destruct (forallb _ l); [|exact K]. cbn [pop_front_loop]. rewrite (proj2 (Z.leb_le _ _) Ha). exact K.
  Qed.

  (** The first suffix minimum is the minimum. *)
  Lemma sufmin_min l x i w : (forall x, In x l -> num (fst x) = true) -> sufmin l = (x, i) :: w ->
    is_min x (map fst l).
  Proof.
    revert x i w. induction l as [|a l IH]; intros x i w Hn E; [discriminate|].
    assert (Ha : num (fst a) = true) by (apply Hn; left; reflexivity).
    assert (Hl : forall x, In x l -> num (fst x) = true) by (intros; apply Hn; right; assumption).
    cbn [sufmin] in E. destruct (forallb (fun z => fltb (fst a) (fst z)) l) eqn:F.
    - injection E as -> _. cbn [fst] in *. split; [left; reflexivity|]. intros y [<-|Hy].
      + apply (leb_spec O); auto. apply Rle_refl.
      + apply in_map_iff in Hy as (z & <- & Hz). rewrite forallb_forall in F. specialize (F z Hz).
        apply (ltb_spec O) in F; auto. apply (leb_spec O); auto. lra.
    - destruct (IH x i w Hl E) as [I1 I2]. split; [right; exact I1|]. intros y [<-|Hy]; [|apply I2; exact Hy].
      assert (Hx : num x = true) by (apply in_map_iff in I1 as (z & <- & Hz); apply Hl; exact Hz).
      assert (G : exists z, In z l /\ fltb (fst a) (fst z) = false).
      { clear -F. induction l as [|b l IH]; [discriminate|]. cbn in F. apply andb_false_iff in F as [F|F].
        - exists b. split; [left; reflexivity|exact F].
        - destruct (IH F) as (z & Hz & Ez). exists z. split; [right; exact Hz|exact Ez]. }
      destruct G as (z & Hz & Ez). assert (Hzn := Hl z Hz).
      assert (Hm : fleb x (fst z) = true) by (apply I2; apply in_map; exact Hz).
      apply (leb_spec O) in Hm; auto. rewrite <- (ltb_false O) in Ez. specialize (Ez Ha Hzn).
      apply (leb_spec O); auto. lra.
  Qed.

  (** Values with their positions (from 1). *)
  Definition indexed (vs : list flt) : list (flt * Z) := combine vs (map Z.of_nat (seq 1 (length vs))).

  Lemma combine_app {A B} (a a' : list A) (b b' : list B) : length a = length b ->
    combine (a ++ a') (b ++ b') = combine a b ++ combine a' b'.
  Proof. revert b. induction a as [|x a IH]; intros [|y b] H; try discriminate; cbn; auto. f_equal. apply IH. cbn in H. lia. Qed.

  Lemma indexed_snoc vs v : indexed (vs ++ [v]) = indexed vs ++ [(v, Z.of_nat (S (length vs)))].
  Proof.
    unfold indexed. rewrite app_length. cbn [length]. rewrite seq_app, map_app, combine_app.
    - replace (1 + length vs)%nat with (S (length vs)) by lia. reflexivity.
    - rewrite map_length, seq_length. reflexivity.
  Qed.

  Lemma indexed_length vs : length (indexed vs) = length vs.
  Proof. unfold indexed. rewrite combine_length, map_length, seq_length. lia. Qed.

  Lemma indexed_fst vs : map fst (indexed vs) = vs.
  Proof.
    induction vs as [|v vs IH] using rev_ind; [reflexivity|]. rewrite indexed_snoc, map_app, IH. reflexivity.
  Qed.

  Lemma indexed_snd vs : map snd (indexed vs) = map Z.of_nat (seq 1 (length vs)).
  Proof.
    induction vs as [|v vs IH] using rev_ind; [reflexivity|]. rewrite indexed_snoc, !map_app, IH, app_length.
    cbn [length]. rewrite seq_app, map_app. do 2 f_equal.
  Qed.

  Lemma skipn_map {A B} (f : A -> B) k l : skipn k (map f l) = map f (skipn k l).
  Proof. revert l. induction k as [|k IH]; intros [|x l]; cbn; auto. Qed.

  Lemma lastn_map {A B} (f : A -> B) k l : lastn k (map f l) = map f (lastn k l).
  Proof. unfold lastn. rewrite map_length. apply skipn_map. Qed.

  Lemma skipn_seq k a n : skipn k (seq a n) = seq (a + k) (n - k).
  Proof.
    revert a n. induction k as [|k IH]; intros a n.
    - cbn. f_equal; lia.
    - destruct n as [|n]; [reflexivity|]. cbn [seq skipn]. rewrite IH. cbn. f_equal. lia.
  Qed.

  Lemma lastn_indexed_snd k vs x : In x (lastn k (indexed vs)) -> (Z.of_nat (length vs) - Z.of_nat k < snd x)%Z.
  Proof.
    intros H. apply (in_map snd) in H. rewrite <- lastn_map, indexed_snd, lastn_map in H. unfold lastn in H.
    rewrite seq_length, skipn_seq in H. apply in_map_iff in H as (i & <- & Hi). apply in_seq in Hi. lia.
  Qed.

  Lemma lastn_in {A} k (l : list A) x : In x (lastn k l) -> In x l.
  Proof. unfold lastn. intros H. rewrite <- (firstn_skipn (length l - k) l). apply in_or_app. right. exact H. Qed.

  (** Invariant: the deque holds the suffix minima of the last n - 1 values before the
      current one. *)
  Definition sm_inv (n : Z) (s : sliding_min) (vs : list flt) : Prop :=
    sm_ok n s vs /\
    match rev vs with
    | [] => True
    | c :: _ =>
      sm_current s = c /\
      sm_window s = sufmin (lastn (Z.to_nat (n - 1)) (indexed (removelast vs))) /\
      sm_minimum s = match sm_window s with [] => c | (x, _) :: _ => fmin x c end
    end.

  Lemma sm_inv_add n s vs v : (0 < n)%Z -> (forall x, In x (vs ++ [v]) -> num x = true) ->
    sm_inv n s vs -> exists s', sm_AddNewValue s v = Done s' /\ sm_inv n s' (vs ++ [v]).
  Proof.
    intros Hn Hv (Hok & Hi). destruct (sm_Add n s vs v Hn Hok) as (s' & E & Hok' & _).
    exists s'. split; [exact E|]. split; [exact Hok'|]. rewrite rev_app_distr, removelast_last. cbn [rev app].
    destruct Hok as (K1 & K2 & K3). unfold sm_AddNewValue in E. rewrite K1, K2 in E.
    destruct ((Z.of_nat (length vs) =? 0)%Z || (n =? 1)%Z) eqn:C.
    - assert (Hw : sm_window s = []).
      { apply K3. apply orb_true_iff in C as [C|C]; apply Z.eqb_eq in C; [left; destruct vs; [reflexivity|cbn in C; lia]|right; exact C]. }
      injection E as <-. cbn [sm_current sm_window sm_minimum]. rewrite Hw. split; [reflexivity|]. split; [|reflexivity].
      apply orb_true_iff in C as [C|C]; apply Z.eqb_eq in C.
      + destruct vs; [|cbn in C; lia]. unfold lastn. cbn [indexed length combine]. rewrite skipn_nil. reflexivity.
      + rewrite C. change (Z.to_nat (1 - 1)) with 0%nat. unfold lastn. rewrite Nat.sub_0_r, skipn_all. reflexivity.
    - apply orb_false_iff in C as [C1 C2]. apply Z.eqb_neq in C1. apply Z.eqb_neq in C2.
      destruct (list_snoc vs) as [->|(vs0 & c & ->)]; [cbn in C1; lia|].
      rewrite rev_app_distr, removelast_last in Hi. cbn [rev app] in Hi. destruct Hi as (I1 & I2 & _).
      assert (Hvs0 : forall x, In x vs0 -> num x = true) by (intros; apply Hv; rewrite <- app_assoc; apply in_or_app; auto).
      assert (Hc : num c = true) by (apply Hv; rewrite <- app_assoc; apply in_or_app; right; left; reflexivity).
      set (pl := lastn (Z.to_nat (n - 1)) (indexed vs0)) in *.
      assert (Hpl : forall x, In x pl -> num (fst x) = true).
      { intros x Hx. apply Hvs0. apply lastn_in in Hx. apply (in_map fst) in Hx. rewrite indexed_fst in Hx. exact Hx. }
      rewrite I1, I2 in E. rewrite pop_back_filter in E;
        [|exact Hc|intros x Hx; apply Hpl; apply sufmin_in; exact Hx|apply sufmin_inc].
      cbn [rev] in E. rewrite rev_involutive in E.
      rewrite app_length in E, C1. cbn [length] in E, C1.
      pose proof (sufmin_snoc pl (c, Z.of_nat (length vs0 + 1))) as SS. cbn [fst] in SS. rewrite <- SS in E.
      assert (P : pop_front_loop (Z.of_nat (length vs0 + 1)) n (sufmin (pl ++ [(c, Z.of_nat (length vs0 + 1))]))
                  = Done (sufmin (lastn (Z.to_nat (n - 1)) (indexed (vs0 ++ [c]))))).
      { rewrite indexed_snoc. replace (S (length vs0)) with (length vs0 + 1)%nat by lia.
        destruct (le_lt_dec (Z.to_nat (n - 1)) (length vs0)) as [H|H].
        - rewrite lastn_snoc_full by (rewrite indexed_length; lia). fold pl.
          assert (Lpl : length pl = Z.to_nat (n - 1)) by (unfold pl; rewrite lastn_length, indexed_length; lia).
          destruct pl as [|a pl'] eqn:Epl; [cbn in Lpl; lia|]. cbn [tl app].
          apply pop_front_one.
          + destruct pl'; discriminate.
          + assert (Hs : map snd (a :: pl') = map Z.of_nat (seq (1 + (length vs0 - Z.to_nat (n - 1))) (length vs0 - (length vs0 - Z.to_nat (n - 1))))).
            { rewrite <- Epl. unfold pl. rewrite <- lastn_map, indexed_snd, lastn_map. unfold lastn.
              rewrite seq_length, skipn_seq. reflexivity. }
            replace (length vs0 - (length vs0 - Z.to_nat (n - 1)))%nat with (S (Z.to_nat (n - 1) - 1)) in Hs by lia.
            cbn [map seq] in Hs. injection Hs as Hs _. rewrite Hs. lia.
          + intros x Hx. apply in_app_or in Hx as [Hx|[<-|[]]]; [|cbn [snd]; lia].
            assert (Hx' : In x (lastn (Z.to_nat (n - 2)) (indexed vs0))).
            { assert (Et : lastn (Z.to_nat (n - 2)) (indexed vs0) = tl pl).
              { unfold pl, lastn. rewrite <- skipn_S_tl, indexed_length. f_equal. lia. }
              rewrite Et, Epl. exact Hx. }
            apply lastn_indexed_snd in Hx'. lia.
        - rewrite lastn_snoc_short by (rewrite indexed_length; lia). fold pl.
          apply pop_front_keep; [apply sufmin_nonempty; destruct pl; discriminate|].
          intros x Hx. apply sufmin_in in Hx. apply in_app_or in Hx as [Hx|[<-|[]]]; [|cbn [snd]; lia].
          apply lastn_in in Hx. apply (in_map snd) in Hx. rewrite indexed_snd in Hx.
          apply in_map_iff in Hx as (i & Hi' & Hx). apply in_seq in Hx. lia. }
      rewrite P in E. cbn [bind] in E. unfold sm_UpdateCurrentValue in E.
      cbn [sm_window_size sm_num_values sm_window] in E.
      replace (Z.of_nat (length vs0 + 1) + 1 >=? 1)%Z with true in E by (symmetry; rewrite Z.geb_leb; apply Z.leb_le; lia).
      rewrite assert_true in E. cbn [bind] in E. injection E as <-. cbn [sm_current sm_window sm_minimum]. auto.
  Qed.

  Lemma sm_inv_min n s vs : (0 < n)%Z -> vs <> [] -> (forall x, In x vs -> num x = true) ->
    sm_inv n s vs -> is_min (sm_Get s) (lastn (Z.to_nat n) vs).
  Proof.
    intros Hn Hne Hv (Hok & Hi). destruct (list_snoc vs) as [->|(vs0 & c & ->)]; [congruence|].
    rewrite rev_app_distr, removelast_last in Hi. cbn [rev app] in Hi. destruct Hi as (I1 & I2 & I3).
    assert (Hvs0 : forall x, In x vs0 -> num x = true) by (intros; apply Hv; apply in_or_app; auto).
    assert (Hc : num c = true) by (apply Hv; apply in_or_app; right; left; reflexivity).
    assert (EL : lastn (Z.to_nat n) (vs0 ++ [c]) = lastn (Z.to_nat (n - 1)) vs0 ++ [c]).
    { unfold lastn. rewrite app_length. cbn [length].
      replace (length vs0 + 1 - Z.to_nat n)%nat with (length vs0 - Z.to_nat (n - 1))%nat by lia.
      apply skipn_snoc. lia. }
    unfold sm_Get. rewrite EL, I3.
    assert (Hpl : forall x, In x (lastn (Z.to_nat (n - 1)) (indexed vs0)) -> num (fst x) = true).
    { intros x Hx. apply Hvs0. apply lastn_in in Hx. apply (in_map fst) in Hx. rewrite indexed_fst in Hx. exact Hx. }
    destruct (sm_window s) as [|[x i] w] eqn:Ew.
    - assert (El : lastn (Z.to_nat (n - 1)) vs0 = []).
      { rewrite <- (indexed_fst vs0), lastn_map.
        destruct (lastn (Z.to_nat (n - 1)) (indexed vs0)) eqn:E; [reflexivity|].
        symmetry in I2. apply sufmin_nonempty in I2; [destruct I2|discriminate]. }
      rewrite El. cbn [app]. split; [left; reflexivity|]. intros y [<-|[]]. apply (leb_spec O); auto. lra.
    - symmetry in I2. destruct (sufmin_min _ _ _ _ Hpl I2) as [M1 M2].
      rewrite <- lastn_map, indexed_fst in M1, M2.
      assert (Hx : num x = true) by (apply Hvs0; apply lastn_in in M1; exact M1).
      destruct (fmin_spec O x c Hx Hc) as (N & V & C). split.
      + apply in_or_app. destruct C as [->| ->]; [left; exact M1|right; left; reflexivity].
      + intros y Hy. pose proof (Rmin_l (val x) (val c)). pose proof (Rmin_r (val x) (val c)).
        apply in_app_or in Hy as [Hy|[<-|[]]].
        * assert (Hyn : num y = true) by (apply Hvs0; apply lastn_in in Hy; exact Hy).
          specialize (M2 y Hy). apply (leb_spec O) in M2; auto. apply (leb_spec O); auto. rewrite V. lra.
        * apply (leb_spec O); auto. rewrite V. lra.
  Qed.

  Lemma sm_inv_new n s : NewSlidingMin n = Done s -> (0 < n)%Z -> sm_inv n s [].
  Proof.
    unfold NewSlidingMin. intros H Hn. inv_done. split; [|exact I].
    repeat split; auto.
  Qed.

  Lemma NewSlidingMin_ok n : (0 < n)%Z -> NewSlidingMin n = Done (SlidingMin n (fofZ 0) (fofZ 0) [] 0).
  Proof.
    intros H. unfold NewSlidingMin. replace (n >? 0)%Z with true by (symmetry; apply Z.gtb_lt; lia).
    rewrite assert_true. reflexivity.
  Qed.

  Lemma not_nan_num x : not_nan x <-> num x = true.
  Proof.
    unfold not_nan. split.
    - intros H. apply (leb_num M O) in H. tauto.
    - intros H. apply (leb_spec O); auto. lra.
  Qed.

  Lemma opp_max m l : (forall x, In x l -> num x = true) -> is_min m (map fopp l) -> is_max (fopp m) l.
  Proof.
    intros Hl [H1 H2]. apply in_map_iff in H1 as (x & <- & Hx). rewrite (opp_opp M O). split; [exact Hx|].
    intros y Hy. specialize (H2 (fopp y) (in_map fopp _ _ Hy)).
    destruct (val_opp M O x (Hl x Hx)) as [N1 V1]. destruct (val_opp M O y (Hl y Hy)) as [N2 V2].
    apply (leb_spec O) in H2; auto. apply (leb_spec O); auto. lra.
  Qed.

  (** Legal operations on the minimum and maximum. *)
  Theorem min_ops n ops : (0 < n)%Z -> legal ops -> ops <> [] ->
    (forall op, In op ops -> match op with Add v => not_nan v | Replace v => not_nan v end) ->
    exists s0 s, NewSlidingMin n = Done s0 /\
      foldM (apply_op sm_AddNewValue sm_UpdateCurrentValue) s0 ops = Done s /\
      is_min (sm_Get s) (lastn (Z.to_nat n) (op_values ops)).
  Proof.
    intros Hn HL Hne Hnan. eexists. rewrite (NewSlidingMin_ok n Hn).
    assert (Hvals : forall x, In x (op_values ops) -> num x = true).
    { clear HL Hne. induction ops as [|op ops IH] using rev_ind; [intros x []|]. intros x Hx. rewrite op_values_snoc in Hx.
      assert (Hop := Hnan op ltac:(apply in_or_app; right; left; reflexivity)).
      assert (IH' := IH (fun o Ho => Hnan o ltac:(apply in_or_app; left; exact Ho))).
      destruct op as [v|v]; apply in_app_or in Hx as [Hx|[<-|[]]]; try (apply not_nan_num; exact Hop).
      - apply IH'. exact Hx.
      - apply IH'. destruct (list_snoc (op_values ops)) as [E|(l & a & E)]; rewrite E in Hx |- *; [destruct Hx|].
        rewrite removelast_last in Hx. apply in_or_app. auto. }
    destruct (run_ops sm_AddNewValue sm_UpdateCurrentValue
      (fun s vs => sm_ok n s vs /\ ((forall x, In x vs -> num x = true) -> sm_inv n s vs) /\
                   match rev vs with
                   | [] => True
                   | c :: older => exists s1, sm_ok n s1 (rev older) /\
                       ((forall x, In x (rev older) -> num x = true) -> sm_inv n s1 (rev older)) /\
                       sm_AddNewValue s1 c = Done s
                   end)) with (s0 := SlidingMin n (fofZ 0) (fofZ 0) [] 0) (ops := ops) as (s & E & _ & H & _).
    - intros s vs v (H1 & H2 & _). destruct (sm_Add n s vs v Hn H1) as (s' & E & H3 & _). exists s'. split; [exact E|].
      split; [exact H3|]. split.
      + intros Hx. destruct (sm_inv_add n s vs v Hn Hx) as (s2 & E2 & I2); [|congruence].
        apply H2. intros x Hx'. apply Hx. apply in_or_app. auto.
      + rewrite rev_app_distr. cbn [rev app]. exists s. rewrite rev_involutive. auto.
    - intros s vs a b (H1 & H2 & H3). rewrite rev_app_distr in H3. cbn [rev app] in H3.
      destruct H3 as (s1 & K1 & K2 & K3). rewrite rev_involutive in *.
      destruct (sm_Add n s1 vs a Hn K1) as (s' & E & _ & U). assert (s' = s) as -> by congruence. rewrite (U b).
      destruct (sm_Add n s1 vs b Hn K1) as (s2 & E2 & O2 & _). exists s2. split; [exact E2|]. split; [exact O2|]. split.
      + intros Hx. destruct (sm_inv_add n s1 vs b Hn Hx) as (s3 & E3 & I3); [|congruence].
        apply K2. intros x Hx'. apply Hx. apply in_or_app. auto.
      + rewrite rev_app_distr. cbn [rev app]. exists s1. rewrite rev_involutive. auto.
    - assert (K := sm_inv_new n _ (NewSlidingMin_ok n Hn) Hn). split; [apply K|]. split; [intros _; exact K|exact I].
    - exact HL.
    - exists s. split; [reflexivity|]. split; [exact E|]. apply sm_inv_min; auto.
      intros E0. apply Hne. destruct (list_snoc ops) as [E1|(l & a & E1)]; [exact E1|].
      rewrite E1, op_values_snoc in E0. destruct a; apply app_eq_nil in E0 as [_ E0]; discriminate.
  Qed.
End Min.
