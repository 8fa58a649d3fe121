(** When runs return. *)
From Coq Require Import ZArith Bool List Lia String.
From Verif.Model Require Import Outcome Machine Types Account SideInput Indicators Eval.
From Verif.Spec Require Import SideInputSpec IndicatorSpec RunSpec TraderSpec ProgressSpec.
From Verif.Proofs Require Import Base SideInputProofs RunProofs RunPairs VolTotal.
Import ListNotations.

Section Progress.
  Context {M : machine}.

  Lemma att_account_last a l : att_account a l = List.last (map snd l) a.
  Proof.
    revert a. induction l as [|[[o ok] a1] l IH]; intros a; [reflexivity|].
    rewrite att_account_cons, IH. cbn [map snd]. destruct l as [|x l]; [reflexivity|].
    cbn [map]. change (List.last (a1 :: snd x :: map snd l) a) with (List.last (snd x :: map snd l) a).
    clear. generalize (snd x). induction (map snd l) as [|y m IH]; intros z; [reflexivity|apply (IH y)].
  Qed.

  (** Trying a list of orders: all are executed or rejected, or some order is stuck. *)
  Lemma try_all cfg t : forall os a,
    (exists atts, map (fun x => fst (fst x)) atts = os /\ tried cfg t a atts) \/
    (exists atts o later, os = map (fun x => fst (fst x)) atts ++ o :: later /\ tried cfg t a atts /\
       forall r, ExecuteOrder cfg o t (List.last (map snd atts) a) <> Done r).
  Proof.
    induction os as [|o os IH]; intros a; [left; exists []; split; [reflexivity|exact I]|].
    destruct (ExecuteOrder cfg o t a) as [[ok a1]| | | |] eqn:E;
      try (right; exists [], o, os; split; [reflexivity|]; split; [exact I|]; cbn; intros r; rewrite E; discriminate).
    destruct (IH a1) as [(atts & H1 & H2)|(atts & o1 & later & H1 & H2 & H3)].
    - left. exists ((o, ok, a1) :: atts). cbn [map fst]. rewrite H1. split; [reflexivity|]. split; assumption.
    - right. exists ((o, ok, a1) :: atts), o1, later. split; [cbn [map fst snd]; rewrite H1; reflexivity|].
      split; [split; assumption|]. rewrite <- att_account_last in *. rewrite att_account_cons. exact H3.
  Qed.

  Section Fixed.
    Context (cfg : account_config) (hist : option (list side_record)) (side : option side_input)
            (te : trader_emitter) (lg : logger) (hl : bool).
    Context (Hside : side_matches hist side).

    Lemma ordered_prefix a b : time_ordered (a ++ b) -> time_ordered a.
    Proof.
      intros H i j t t' Hi Hj L. apply (H i j); auto; rewrite nth_error_app1; auto; apply nth_error_Some; congruence.
    Qed.

    Lemma fold_progress l0 s0 ticks :
      exec_init cfg te lg l0 = Done s0 -> (hist = None \/ time_ordered ticks) ->
      (exists s, foldM (tick_step cfg side true te lg hl) s0 ticks = Done s) \/
      (exists past t rest rows, ticks = past ++ t :: rest /\ story cfg hist te past rows /\ stuck cfg hist te rows t).
    Proof.
      intros Hinit. induction ticks as [|t ticks IH] using rev_ind; intros Hord; [left; eexists; reflexivity|].
      destruct IH as [(s & Hs)|(past & t0 & rest & rows & -> & H)].
      { destruct Hord as [?|Ho]; [left; auto|right]. eapply ordered_prefix, Ho. }
      2:{ right. exists past, t0, (rest ++ [t]), rows. rewrite <- app_assoc. split; [reflexivity|exact H]. }
      assert (Hord' : hist = None \/ time_ordered ticks).
      { destruct Hord as [?|Ho]; [left; auto|right]. eapply ordered_prefix, Ho. }
      destruct (run_inv cfg hist side true te lg hl Hside l0 ticks s0 s Hinit Hord' Hs) as [rows [Ist Iac Ior Itr Iex Ilo Isi _ _]].
      assert (Hlast : hist = None \/ match rev ticks with [] => True | t0 :: _ => (timestamp_sec t0 <= timestamp_sec t)%Z end).
      { destruct Hord as [?|Ho]; [left; auto|right]. apply time_ordered_snoc in Ho. apply Ho. }
      destruct (side_part_total hist side Hside ticks t _ _ Isi Hlast) as ([sig prev] & Hsp).
      destruct (side_part_ok hist side Hside ticks t _ _ sig prev Isi Hlast Hsp) as [_ Hsk].
      destruct (try_all cfg t (x_orders te lg s) (x_account te lg s)) as [(atts & Hm & Htr)|(atts & o & later & Hm & Htr & Hst)].
      2:{ right. exists ticks, t, [], rows. split; [reflexivity|]. split; [exact Ist|].
          eapply (stuck_order _ _ _ _ _ atts o later); [|exact Hst]. rewrite Ior in Hm. rewrite Iac in *. split; [exact Hm|]. auto. }
      set (a := List.last (map snd atts) (x_account te lg s)) in *.
      destruct (feqb (volume t) (fofZ 0)) eqn:Ev.
      - left. rewrite foldM_snoc, Hs. cbn [bind]. unfold tick_step. rewrite Hsp. cbn [bind].
        rewrite <- Hm, (order_loop_complete cfg te lg hl t atts _ _ _ Htr). cbn [bind]. rewrite Ev. eexists. reflexivity.
      - destruct (te_update te (x_trader te lg s) t sig (base_balance a) (quote_balance a)) as [[ts os]| | | |] eqn:Eu.
        1:{ left. rewrite foldM_snoc, Hs. cbn [bind]. unfold tick_step. rewrite Hsp. cbn [bind].
            rewrite <- Hm, (order_loop_complete cfg te lg hl t atts _ _ _ Htr). cbn [bind]. rewrite Ev, att_account_last. fold a. rewrite Eu.
            cbn [bind]. eexists. reflexivity. }
        all: right; exists ticks, t, [], rows; split; [reflexivity|]; split; [exact Ist|];
          apply (stuck_trader _ _ _ _ _ atts a sig);
          [split; [unfold pending; rewrite <- Ior, app_nil_r; symmetry; exact Hm|unfold a; rewrite <- Iac; auto]|exact Ev|exact Hsk|];
          unfold trader_now; rewrite <- Itr; intros r; rewrite Eu; discriminate.
    Qed.

    Theorem run_progress fast ticks l :
      time_ordered ticks ->
      (exists res l', ExecuteTrader cfg side fast te lg hl ticks l = Done (res, l')) \/
      (exists past t rest rows, ticks = past ++ t :: rest /\ story cfg hist te past rows /\ stuck cfg hist te rows t).
    Proof.
      intros Ho.
      assert (H : (exists res l', ExecuteTrader cfg side true te lg hl ticks l = Done (res, l')) \/
        (exists past t rest rows, ticks = past ++ t :: rest /\ story cfg hist te past rows /\ stuck cfg hist te rows t)).
      { destruct ticks as [|t0 ts]; [left; do 2 eexists; reflexivity|].
        assert (exists s0, exec_init cfg te lg l = Done s0) as (s0 & Hi).
        { unfold exec_init, NewVolatility, LastN_check. rewrite !assert_true. cbn [bind]. eexists. reflexivity. }
        destruct (fold_progress l s0 (t0 :: ts) Hi (or_intror Ho)) as [(s & Hs)|H]; [left|right; exact H].
        unfold ExecuteTrader. rewrite Hi. cbn [bind]. rewrite Hs. cbn [bind]. do 2 eexists. reflexivity. }
      destruct fast; [exact H|]. destruct H as [(res & l' & H)|H]; [left|right; exact H].
      pose proof (fast_irrelevant cfg side te lg hl ticks l Ho) as F. rewrite H in F. unfold orel in F.
      destruct (ExecuteTrader cfg side false te lg hl ticks l) as [[r2 l2]| | | |]; try contradiction; eauto.
    Qed.
  End Fixed.

  (** A stuck run does not return. *)
  Lemma tried_prefix cfg t : forall atts later atts' a,
    map (fun x => fst (fst x)) atts' = map (fun x => fst (fst x)) atts ++ later ->
    tried cfg t a atts -> tried cfg t a atts' ->
    exists rest, atts' = atts ++ rest /\ map (fun x => fst (fst x)) rest = later /\
      tried cfg t (List.last (map snd atts) a) rest.
  Proof.
    induction atts as [|[[o ok] a1] atts IH]; intros later atts' a Hm H1 H2; [exists atts'; auto|].
    destruct atts' as [|[[o' ok'] a1'] atts']; [discriminate|]. cbn [map fst app] in Hm. injection Hm as -> Hm.
    destruct H1 as [E1 H1], H2 as [E2 H2]. rewrite E1 in E2. injection E2 as <- <-.
    destruct (IH later atts' a1 Hm H1 H2) as (rest & -> & Hr & Ht). exists rest. split; [reflexivity|]. split; [exact Hr|].
    rewrite <- att_account_last in *. rewrite att_account_cons. exact Ht.
  Qed.

  Theorem stuck_never cfg hist side te lg hl fast past t rest rows l :
    side_matches hist side -> time_ordered (past ++ t :: rest) ->
    story cfg hist te past rows -> stuck cfg hist te rows t ->
    forall r, ExecuteTrader cfg side fast te lg hl (past ++ t :: rest) l <> Done r.
  Proof.
    intros Hs Ho S0 K [res l'] H.
    destruct (run_story cfg hist side fast te lg hl Hs _ l res l' (or_intror Ho) H) as [(E & _)|(f & r0 & rows' & _ & S1 & _)];
      [destruct past; discriminate|].
    assert (G : side_good hist).
    { unfold side_good, side_matches in *. destruct hist, side; try contradiction; auto. apply Hs. }
    assert (K0 : forall T, same_knowledge hist hist T) by (intros T; unfold same_knowledge; destruct hist; intuition).
    assert (Ht : forall x, In x past -> (timestamp_sec x <= timestamp_sec t)%Z).
    { intros x Hx. apply In_nth_error in Hx as [i Hi]. assert (L : i < List.length past) by (apply nth_error_Some; congruence).
      apply (Ho i (List.length past)); [rewrite nth_error_app1; auto|rewrite nth_error_app2, Nat.sub_diag; auto|exact L]. }
    assert (S0' : story cfg hist te (past ++ []) rows) by (rewrite app_nil_r; exact S0).
    pose proof (story_prefix cfg hist hist te past [] (t :: rest) rows rows' (timestamp_sec t) G G (K0 _) Ht S0' S1) as P.
    assert (Lr : List.length rows = List.length past) by (rewrite <- (proj1 S0), map_length; reflexivity).
    rewrite <- Lr, firstn_all in P.
    assert (Lr' : List.length rows' = List.length past + S (List.length rest)).
    { rewrite <- (map_length w_tick), (proj1 S1), app_length. reflexivity. }
    destruct (nth_error rows' (List.length rows)) as [r|] eqn:En; [|apply nth_error_None in En; lia].
    destruct (nth_error_split rows' _ En) as (b & after & E & Lb). subst rows'.
    rewrite (firstn_exact _ b) in P by exact Lb. subst b.
    destruct S1 as [Hm Hok]. specialize (Hok rows r after eq_refl).
    assert (Et : w_tick r = t).
    { pose proof (f_equal (fun l => nth_error l (List.length past)) Hm) as Q. cbv beta in Q.
      rewrite nth_error_map, <- Lr, En, Lr in Q. cbn [option_map] in Q. rewrite nth_error_app2, Nat.sub_diag in Q by lia. cbn in Q. congruence. }
    destruct Hok as [A O T Sg U]. subst t.
    assert (Ea : w_account r = final_account cfg rows) by exact A.
    destruct K as [atts o later a (Hp & Htr & ->) Hst|atts a sig (Hp & Htr & ->) Hv Hk Hst].
    - unfold pending in Hp. rewrite Ea in T. rewrite Hp in O.
      destruct (tried_prefix cfg (w_tick r) atts (o :: later) (w_attempts r) _ O Htr T) as (q & _ & Hq & Tq).
      destruct q as [|[[o' ok'] a'] q]; [discriminate|]. cbn [map fst] in Hq. injection Hq as -> _.
      destruct Tq as [Tq _]. exact (Hst _ Tq).
    - unfold pending in Hp. rewrite Hp in O. rewrite Ea in T.
      destruct (tried_prefix cfg (w_tick r) atts [] (w_attempts r) _ O Htr T) as (q & Eq & Hq & _).
      destruct q; [|discriminate]. rewrite app_nil_r in Eq.
      assert (Eaa : account_after r = List.last (map snd atts) (final_account cfg rows)).
      { rewrite <- att_account_last, <- Eq, <- Ea. reflexivity. }
      destruct (w_update r) as [[st os]|]; [|congruence]. destruct U as [_ U]. rewrite Eaa in U.
      assert (Esig : w_signals r = sig).
      { eapply (signals_known_same hist hist (timestamp_sec (w_tick r)) (timestamp_sec (w_tick r))); auto; lia. }
      rewrite Esig in U. exact (Hst _ U).
  Qed.

  (** *** What the trader was shown and what it emitted *)
  Fixpoint state_from (e : trader_emitter) (s : te_state e) (vs : list view) : outcome (te_state e) :=
    match vs with
    | [] => Done s
    | v :: vs' =>
      do r <- te_update e s (v_tick v) (v_signals v) (v_base v) (v_quote v) ;
      state_from e (fst r) vs'
    end.

  Lemma orders_snoc (e : trader_emitter) v : forall vs s oss s',
    orders_from e s vs = Done oss -> state_from e s vs = Done s' ->
    orders_from e s (vs ++ [v]) = omap (fun r => oss ++ [snd r]) (te_update e s' (v_tick v) (v_signals v) (v_base v) (v_quote v)) /\
    state_from e s (vs ++ [v]) = omap fst (te_update e s' (v_tick v) (v_signals v) (v_base v) (v_quote v)).
  Proof.
    induction vs as [|w vs IH]; intros s oss s' H1 H2.
    - injection H1 as <-. injection H2 as <-. cbn. destruct (te_update e s _ _ _ _); split; reflexivity.
    - cbn [orders_from state_from app] in *. apply bind_done in H1 as (r & E & H1). rewrite E in *. cbn [bind] in *.
      apply bind_done in H1 as (q & H1 & H3). injection H3 as <-.
      destruct (IH _ _ _ H1 H2) as [I1 I2]. rewrite I1, I2. destruct (te_update e s' _ _ _ _); split; reflexivity.
  Qed.

  Definition emitted {S} (rows : list (row S)) : list (list order) :=
    flat_map (fun r => match w_update r with None => [] | Some (_, os) => [os] end) rows.

  Lemma story_views cfg hist te ticks : forall rows, story cfg hist te ticks rows ->
    orders_emitted te (views rows) = Done (emitted rows) /\    state_from te (te_new te) (views rows) = Done (trader_now te rows).
  Proof.
    induction ticks as [|t ticks IH] using rev_ind; intros rows S0.
    - destruct S0 as [Hm _]. destruct rows; [|discriminate]. split; reflexivity.
    - destruct (story_unsnoc cfg hist te ticks t rows S0) as (rows' & r & -> & _ & S1 & [_ _ _ _ U]).
      destruct (IH rows' S1) as [I1 I2]. unfold orders_emitted in *.
      unfold views, emitted. rewrite !flat_map_app. cbn [flat_map]. fold (views rows') (emitted rows').
      unfold trader_now in *. rewrite last_update_snoc.
      destruct (w_update r) as [[st os]|]; cbn [app].
      + destruct U as [_ U].
        destruct (orders_snoc te (View (w_tick r) (w_signals r) (base_balance (account_after r)) (quote_balance (account_after r))) _ _ _ _ I1 I2) as [E1 E2].
        cbn [v_tick v_signals v_base v_quote] in E1, E2. rewrite U in E1, E2. cbn [omap fst snd] in E1, E2. rewrite E1, E2. split; reflexivity.
      + rewrite !app_nil_r. split; assumption.
  Qed.

  (** The next update of the trader succeeds if the trader accepts the extended list of views. *)
  Lemma next_update cfg hist te ticks rows v oss : story cfg hist te ticks rows ->
    orders_emitted te (views rows ++ [v]) = Done oss ->
    exists r, te_update te (trader_now te rows) (v_tick v) (v_signals v) (v_base v) (v_quote v) = Done r.
  Proof.
    intros S0 H. destruct (story_views cfg hist te ticks rows S0) as [I1 I2]. unfold orders_emitted in *.
    destruct (orders_snoc te v _ _ _ _ I1 I2) as [E _]. rewrite E in H. destruct (te_update te _ _ _ _ _) as [r| | | |]; try discriminate. eauto.
  Qed.

  Lemma pending_emitted {S} (rows : list (row S)) o : In o (pending rows) -> exists os, In os (emitted rows) /\ In o os.
  Proof.
    unfold pending. induction rows as [|r rows IH]; cbn [last_update]; [intros []|].
    destruct (last_update rows) as [[st os]|] eqn:E.
    - intros H. destruct (IH H) as (os' & I1 & I2). exists os'. split; [|exact I2]. unfold emitted. cbn [flat_map]. apply in_or_app. right. exact I1.
    - destruct (w_update r) as [[st os]|] eqn:Eu; [|intros []]. intros H. exists os. split; [|exact H].
      unfold emitted. cbn [flat_map]. rewrite Eu. left. reflexivity.
  Qed.
End Progress.

(** *** Runs of a trader that copes with everything it is shown return. *)
Section Steady.
  Context {M : machine} (cfg : account_config) (hist : option (list side_record)) (te : trader_emitter)
          (A X : account -> Prop) (O : order -> Prop) (T : ohlc_tick -> Prop) (ticks : list ohlc_tick).

  Definition shown (v : view) : Prop :=
    T (v_tick v) /\ exists a, A a /\ X a /\ v_base v = base_balance a /\ v_quote v = quote_balance a.

  Context (Hexec : forall o t a, A a -> X a -> O o -> T t -> exists ok a', ExecuteOrder cfg o t a = Done (ok, a') /\ A a')
          (Hopen : A (opening_account cfg))
          (Hte : forall vs, increasing_from 0 vs -> Forall shown vs ->
                   exists oss, orders_emitted te vs = Done oss /\ Forall (Forall O) oss)
          (Hticks : strictly_ordered ticks) (HT : Forall T ticks)
          (HX : forall a, reached cfg hist te ticks a -> X a).

  Lemma tried_app_inv t : forall pre post a, tried cfg t a (pre ++ post) -> tried cfg t a pre /\ tried cfg t (List.last (map snd pre) a) post.
  Proof.
    induction pre as [|[[o ok] a1] pre IH]; intros post a H; [split; [exact I|exact H]|].
    destruct H as [H1 H2]. destruct (IH _ _ H2) as [I1 I2]. split; [split; assumption|].
    rewrite <- att_account_last in *. rewrite att_account_cons. exact I2.
  Qed.

  (** Along the attempts on the next tick. *)
  Lemma attempts_good past t rest rows : ticks = past ++ t :: rest -> story cfg hist te past rows ->
    A (final_account cfg rows) -> Forall O (pending rows) ->
    forall atts later a, attempted cfg rows t atts later a -> A a /\ X a.
  Proof.
    intros Et S0 A0 HO atts. induction atts as [|x atts IH] using rev_ind; intros later a Ha.
    - assert (a = final_account cfg rows) by (destruct Ha as (_ & _ & ->); reflexivity). subst a.
      split; [exact A0|]. apply HX. exists past, t, rest, rows, [], later. auto.
    - split; [|apply HX; exists past, t, rest, rows, (atts ++ [x]), later; auto].
      destruct Ha as (Hp & Htr & ->). destruct x as [[o ok] a1].
      apply tried_app_inv in Htr as [H1 [H2 _]]. rewrite map_app in Hp. cbn [map fst] in Hp. rewrite <- app_assoc in Hp.
      destruct (IH (o :: later) (List.last (map snd atts) (final_account cfg rows))) as [I1 I2]; [split; [exact Hp|auto]|].
      rewrite map_app; cbn [map snd]; rewrite last_last.
      assert (Oo : O o).
      { rewrite Hp in HO. apply Forall_app in HO as [_ HO]. apply Forall_cons_iff in HO. apply HO. }
      assert (Tt : T t).
      { rewrite Et in HT. apply Forall_app in HT as [_ HT']. apply Forall_cons_iff in HT'. apply HT'. }
      destruct (Hexec o t _ I1 I2 Oo Tt) as (ok' & a' & E & A'). rewrite H2 in E. injection E as <- <-. exact A'.
  Qed.

  (** Timestamps of the views. *)
  Lemma views_times rows past : story cfg hist te past rows -> strictly_ordered past ->
    increasing_from 0 (views rows) /\ forall T0, (forall t, In t past -> (timestamp_sec t < T0)%Z) ->
      forall v, v_time v = T0 -> (0 < T0)%Z -> increasing_from 0 (views rows ++ [v]).
  Proof.
    revert rows. induction past as [|t past IH] using rev_ind; intros rows S0 Ho.
    - destruct S0 as [Hm _]. destruct rows; [|discriminate]. split; [exact I|]. intros T0 _ v <- H. cbn. auto.
    - destruct (story_unsnoc cfg hist te past t rows S0) as (rows' & r & -> & Et & S1 & _).
      assert (Ho' : strictly_ordered past).
      { destruct Ho as [P1 P2]. split; [intros x Hx; apply P1, in_or_app; auto|].
        intros i j a b Ha Hb L. apply (P2 i j); auto; rewrite nth_error_app1; auto; apply nth_error_Some; congruence. }
      destruct (IH rows' S1 Ho') as [I1 I2].
      assert (Hlt : forall x, In x past -> (timestamp_sec x < timestamp_sec t)%Z).
      { intros x Hx. apply In_nth_error in Hx as [i Hi]. destruct Ho as [_ P2].
        assert (L : i < List.length past) by (apply nth_error_Some; congruence).
        apply (P2 i (List.length past)); [rewrite nth_error_app1; auto|rewrite nth_error_app2, Nat.sub_diag; auto|exact L]. }
      assert (Hpos : (0 < timestamp_sec t)%Z) by (apply (proj1 Ho), in_or_app; right; left; reflexivity).
      unfold views. rewrite flat_map_app. fold (views rows'). cbn [flat_map].
      destruct (w_update r) as [u|] eqn:Eu.
      + cbn [app].
        set (w := View (w_tick r) (w_signals r) (base_balance (account_after r)) (quote_balance (account_after r))).
        pose proof (I2 (timestamp_sec t) Hlt w ltac:(unfold w, v_time; cbn; congruence) Hpos) as K.
        split; [exact K|]. intros T0 HT0 v Hv HT0p.
        assert (Hw : (v_time w < v_time v)%Z) by (rewrite Hv; unfold w, v_time; cbn; rewrite Et; apply HT0, in_or_app; right; left; reflexivity).
        clear - K Hw. revert K. generalize 0%Z. induction (views rows') as [|x l IHl]; intros z K; cbn [app increasing_from] in *; [intuition|].
        destruct K as [K1 K2]. split; [exact K1|]. apply IHl, K2.
      + cbn [app]. rewrite app_nil_r. split; [exact I1|]. intros T0 HT0. apply I2. intros x Hx. apply HT0, in_or_app. auto.
  Qed.

  Lemma strictly_prefix a b : strictly_ordered (a ++ b) -> strictly_ordered a.
  Proof.
    intros [P1 P2]. split; [intros x Hx; apply P1, in_or_app; auto|].
    intros i j x y Hx Hy L. apply (P2 i j); auto; rewrite nth_error_app1; auto; apply nth_error_Some; congruence.
  Qed.

  Lemma story_good : forall past rest rows, ticks = past ++ rest -> story cfg hist te past rows ->
    A (final_account cfg rows) /\ Forall shown (views rows) /\ Forall O (pending rows) /\
    Forall (Forall A) (map row_accounts rows).
  Proof.
    induction past as [|t past IH] using rev_ind; intros rest rows Et S0.
    - destruct S0 as [Hm _]. destruct rows; [|discriminate]. split; [exact Hopen|]. split; [constructor|split; constructor].
    - destruct (story_unsnoc cfg hist te past t rows S0) as (rows' & r & -> & Ert & S1 & [Ra Ro Rt Rs Ru]).
      rewrite <- app_assoc in Et. cbn [app] in Et.
      destruct (IH (t :: rest) rows' Et S1) as (I1 & I2 & I3 & I4).
      pose proof (attempts_good past t rest rows' Et S1 I1 I3) as G.
      assert (Ea : w_account r = final_account cfg rows') by exact Ra.
      rewrite Ert, Ea in Rt.
      assert (Eaa : account_after r = List.last (map snd (w_attempts r)) (final_account cfg rows')).
      { rewrite <- att_account_last, <- Ea. reflexivity. }
      assert (Ga : A (account_after r) /\ X (account_after r)).
      { apply (G (w_attempts r) []). split; [rewrite app_nil_r; symmetry; exact Ro|]. split; [exact Rt|exact Eaa]. }
      assert (Tt : T t).
      { rewrite Et in HT. apply Forall_app in HT as [_ HT']. apply Forall_cons_iff in HT'. apply HT'. }
      assert (HV : Forall shown (views (rows' ++ [r]))).
      { unfold views. rewrite flat_map_app. fold (views rows'). apply Forall_app. split; [exact I2|]. cbn [flat_map].
        destruct (w_update r) as [u|]; [|constructor]. constructor; [|constructor]. split; [cbn; rewrite Ert; exact Tt|].
        exists (account_after r). cbn. split; [apply Ga|]. split; [apply Ga|auto]. }
      split; [|split; [exact HV|split]].
      + unfold final_account. rewrite rev_app_distr. apply Ga.
      + assert (Ho : strictly_ordered (past ++ [t])) by (apply (strictly_prefix _ rest); rewrite <- app_assoc; cbn; rewrite <- Et; exact Hticks).
        destruct (Hte _ (proj1 (views_times _ _ S0 Ho)) HV) as (oss & E & F).
        destruct (story_views cfg hist te _ _ S0) as [E2 _]. rewrite E in E2. injection E2 as ->.
        apply Forall_forall. intros o Hin. apply pending_emitted in Hin as (os & J1 & J2).
        rewrite Forall_forall in F. specialize (F os J1). rewrite Forall_forall in F. apply F, J2.
      + rewrite map_app. apply Forall_app. split; [exact I4|]. constructor; [|constructor]. unfold row_accounts.
        constructor; [rewrite Ea; exact I1|]. apply Forall_forall. intros a Hin.
        apply in_map_iff in Hin as ([[o ok] a'] & E & Hin). cbn in E. subst a'. apply in_split in Hin as (l1 & l2 & E).
        apply (G (l1 ++ [(o, ok, a)]) (map (fun x => fst (fst x)) l2)). rewrite E in Rt, Ro.
        split; [unfold pending; rewrite <- Ro, !map_app; cbn [map]; rewrite <- app_assoc; reflexivity|].
        change ((o, ok, a) :: l2) with ([(o, ok, a)] ++ l2) in Rt. rewrite app_assoc in Rt.
        split; [apply (tried_app_inv t _ l2 _ Rt)|]. rewrite map_app; cbn [map snd]; rewrite last_last; reflexivity.
  Qed.

  Lemma strict_ordered : time_ordered ticks.
  Proof. intros i j t t' H1 H2 L. apply Z.lt_le_incl. destruct Hticks as [_ P]. eapply P; eauto. Qed.

  Theorem steady_returns side lg hl fast l : side_matches hist side ->
    exists res l', ExecuteTrader cfg side fast te lg hl ticks l = Done (res, l').
  Proof.
    intros Hs. destruct (run_progress cfg hist side te lg hl Hs fast ticks l strict_ordered) as [H|(past & t & rest & rows & Et & S0 & K)]; [exact H|].
    exfalso. destruct (story_good past (t :: rest) rows Et S0) as (I1 & I2 & I3 & _).
    pose proof (attempts_good past t rest rows Et S0 I1 I3) as G.
    assert (Tt : T t).
    { rewrite Et in HT. apply Forall_app in HT as [_ HT']. apply Forall_cons_iff in HT'. apply HT'. }
    destruct K as [atts o later a Ha Hst|atts a sig Ha Hv Hk Hst].
    - destruct (G _ _ _ Ha) as [Aa Xa]. destruct Ha as (Hp & _). rewrite Hp in I3. apply Forall_app in I3 as [_ I3]. apply Forall_cons_iff in I3 as [Oo _].
      destruct (Hexec o t a Aa Xa Oo Tt) as (ok & a' & E & _). exact (Hst _ E).
    - destruct (G _ _ _ Ha) as [Aa Xa].
      set (v := View t sig (base_balance a) (quote_balance a)).
      assert (HV : Forall shown (views rows ++ [v])).
      { apply Forall_app. split; [exact I2|]. constructor; [|constructor]. split; [exact Tt|]. exists a. auto. }
      assert (Hi : increasing_from 0 (views rows ++ [v])).
      { assert (Ho : strictly_ordered past) by (apply (strictly_prefix _ (t :: rest)); rewrite <- Et; exact Hticks).
        rewrite Et in Hticks. destruct Hticks as [P1 P2].
        apply (proj2 (views_times rows past S0 Ho) (timestamp_sec t)); [|reflexivity|apply P1, in_or_app; right; left; reflexivity].
        intros x Hx. apply In_nth_error in Hx as [i Hn].
        assert (L : i < List.length past) by (apply nth_error_Some; congruence).
        apply (P2 i (List.length past)); [rewrite nth_error_app1; auto|rewrite nth_error_app2, Nat.sub_diag; auto|exact L]. }
      destruct (Hte _ Hi HV) as (oss & E & _).
      destruct (next_update cfg hist te past rows v oss S0 E) as (r & Er). exact (Hst _ Er).
  Qed.
End Steady.
