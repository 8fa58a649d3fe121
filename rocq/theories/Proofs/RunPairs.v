(** Pairs of runs of ExecuteTrader: with and without a logger, fast or not, and with two
    side inputs that agree on the past. *)
From Coq Require Import ZArith Bool List Lia String.
From Verif.Model Require Import Outcome Machine Types Account SideInput Indicators Eval.
From Verif.Spec Require Import SideInputSpec RunSpec.
From Verif.Proofs Require Import Base SideInputProofs RunProofs.
Import ListNotations.

(** Outcomes related: the same kind, and related values if Done. *)
Definition orel {A B} (R : A -> B -> Prop) (x : outcome A) (y : outcome B) : Prop :=
  match x, y with
  | Done a, Done b => R a b
  | AssertFail, AssertFail | Undefined, Undefined | Thrown, Thrown | Diverged, Diverged => True
  | _, _ => False
  end.

Lemma orel_bind {A B A' B'} (R : A -> B -> Prop) (R' : A' -> B' -> Prop) x y f g :
  orel R x y -> (forall a b, x = Done a -> y = Done b -> R a b -> orel R' (f a) (g b)) ->
  orel R' (bind x f) (bind y g).
Proof. destruct x, y; cbn; try contradiction; auto. Qed.

Lemma orel_refl {A} (x : outcome A) : orel eq x x.
Proof. destruct x; cbn; auto. Qed.

Lemma orel_eq {A} (x y : outcome A) : orel eq x y -> x = y.
Proof. destruct x, y; cbn; try contradiction; congruence. Qed.

Lemma orel_foldM {A S T} (R : S -> T -> Prop) (f : S -> A -> outcome S) (g : T -> A -> outcome T) l s t :
  R s t -> (forall s t a, R s t -> orel R (f s a) (g t a)) -> orel R (foldM f s l) (foldM g t l).
Proof.
  intros H Hs. revert s t H. induction l as [|a l IH]; intros s t H; cbn; [exact H|].
  apply (orel_bind R); auto.
Qed.

Section Pairs.
  Context {M : machine}.
  Context (cfg : account_config).

  Section Logger.
    Context (side : option side_input) (fast : bool) (te : trader_emitter)
            (lg1 lg2 : logger) (hl1 hl2 : bool).

    Definition same_but_log (s1 : exec_state te lg1) (s2 : exec_state te lg2) : Prop :=
      x_account te lg1 s1 = x_account te lg2 s2 /\
      x_signals te lg1 s1 = x_signals te lg2 s2 /\
      x_prev_index te lg1 s1 = x_prev_index te lg2 s2 /\
      x_orders te lg1 s1 = x_orders te lg2 s2 /\
      x_executed te lg1 s1 = x_executed te lg2 s2 /\
      x_base_vol te lg1 s1 = x_base_vol te lg2 s2 /\
      x_trader_vol te lg1 s1 = x_trader_vol te lg2 s2 /\
      x_trader te lg1 s1 = x_trader te lg2 s2.

    Lemma order_loop_logger t os a n l1 l2 :
      orel (fun x y => fst x = fst y)
           (foldM (order_step cfg lg1 hl1 t) (a, n, l1) os)
           (foldM (order_step cfg lg2 hl2 t) (a, n, l2) os).
    Proof.
      apply orel_foldM; [reflexivity|]. intros [[a1 n1] l1'] [[a2 n2] l2'] o E.
      cbn in E. injection E as <- <-. unfold order_step.
      apply (orel_bind eq); [apply orel_refl|]. intros [ok a'] ? _ _ <-.
      destruct ok; reflexivity.
    Qed.

    Lemma tick_step_logger s1 s2 t :
      same_but_log s1 s2 ->
      orel same_but_log (tick_step cfg side fast te lg1 hl1 s1 t) (tick_step cfg side fast te lg2 hl2 s2 t).
    Proof.
      intros (E1 & E2 & E3 & E4 & E5 & E6 & E7 & E8). unfold tick_step.
      rewrite <- E1, <- E2, <- E3, <- E4, <- E5, <- E6, <- E7, <- E8.
      apply (orel_bind eq); [apply orel_refl|]. intros [sig prev] ? _ _ <-.
      eapply orel_bind; [apply order_loop_logger|].
      intros [[a n] l1] [[a' n'] l2] _ _ E. cbn in E. injection E as <- <-.
      destruct (feqb _ _); [cbn; repeat split|].
      apply (orel_bind eq); [apply orel_refl|]. intros [ts os] ? _ _ <-.
      apply (orel_bind eq); [apply orel_refl|]. intros bv ? _ _ <-.
      apply (orel_bind eq); [apply orel_refl|]. intros tv ? _ _ <-.
      cbn. repeat split.
    Qed.

    Lemma logger_irrelevant ticks l1 l2 :
      omap fst (ExecuteTrader cfg side fast te lg1 hl1 ticks l1)
      = omap fst (ExecuteTrader cfg side fast te lg2 hl2 ticks l2).
    Proof.
      unfold ExecuteTrader. destruct ticks as [|t ticks]; [reflexivity|].
      apply orel_eq. unfold omap.
      eapply (orel_bind (fun x y => fst x = fst y));
        [|intros [? ?] [? ?] _ _ E; cbn in *; exact E].
      apply (orel_bind same_but_log).
      { unfold exec_init. apply (orel_bind eq); [apply orel_refl|]. intros bv ? _ _ <-.
        apply (orel_bind eq); [apply orel_refl|]. intros tv ? _ _ <-. cbn. repeat split. }
      intros s1 s2 _ _ Hs.
      apply (orel_bind same_but_log); [apply orel_foldM; auto using tick_step_logger|].
      intros z1 z2 _ _ (E1 & E2 & E3 & E4 & E5 & E6 & E7 & E8). cbn.
      unfold exec_result. rewrite E1, E5, E6, E7. reflexivity.
    Qed.
  End Logger.

  Section SameMachineState.
    Context (fast : bool) (te : trader_emitter) (lg : logger) (hl : bool).
    Context (h1 h2 : option (list side_record)) (s1 s2 : option side_input) (T : Z).
    Context (H1 : side_matches h1 s1) (H2 : side_matches h2 s2) (Hk : same_knowledge h1 h2 T).

    Definition same_but_index (ticks : list ohlc_tick) (x y : exec_state te lg) : Prop :=
      x_account te lg x = x_account te lg y /\
      x_signals te lg x = x_signals te lg y /\
      x_orders te lg x = x_orders te lg y /\
      x_executed te lg x = x_executed te lg y /\
      x_base_vol te lg x = x_base_vol te lg y /\
      x_trader_vol te lg x = x_trader_vol te lg y /\
      x_trader te lg x = x_trader te lg y /\
      x_log te lg x = x_log te lg y /\
      side_inv h1 ticks (x_prev_index te lg x) (x_signals te lg x) /\
      side_inv h2 ticks (x_prev_index te lg y) (x_signals te lg y).

    Lemma side_good_of h s : side_matches h s -> side_good h.
    Proof. destruct h, s; cbn; tauto. Qed.

    Lemma tick_step_same_past ticks t x y :
      same_but_index ticks x y -> (timestamp_sec t <= T)%Z ->
      match rev ticks with [] => True | t0 :: _ => (timestamp_sec t0 <= timestamp_sec t)%Z end ->
      orel (same_but_index (ticks ++ [t]))
           (tick_step cfg s1 fast te lg hl x t) (tick_step cfg s2 fast te lg hl y t).
    Proof.
      intros (E1 & E2 & E3 & E4 & E5 & E6 & E7 & E8 & I1 & I2) Ht Hord. unfold tick_step.
      destruct (side_part_total h1 s1 H1 ticks t _ _ I1 (or_intror Hord)) as [[sg1 p1] P1].
      destruct (side_part_total h2 s2 H2 ticks t _ _ I2 (or_intror Hord)) as [[sg2 p2] P2].
      destruct (side_part_ok h1 s1 H1 ticks t _ _ _ _ I1 (or_intror Hord) P1) as [J1 K1].
      destruct (side_part_ok h2 s2 H2 ticks t _ _ _ _ I2 (or_intror Hord) P2) as [J2 K2].
      assert (sg1 = sg2).
      { apply (signals_known_same h1 h2 T (timestamp_sec t)); auto; eapply side_good_of; eauto. }
      subst sg2. rewrite P1, P2. cbn [bind]. rewrite <- E1, <- E3, <- E4, <- E8.
      apply (orel_bind eq); [apply orel_refl|]. intros [[a n] l'] ? _ _ <-.
      rewrite <- E5, <- E6, <- E7.
      destruct (feqb _ _).
      { cbn. unfold same_but_index. cbn. repeat (split; [reflexivity || assumption|]). assumption. }
      apply (orel_bind eq); [apply orel_refl|]. intros [ts os] ? _ _ <-.
      apply (orel_bind eq); [apply orel_refl|]. intros bv ? _ _ <-.
      apply (orel_bind eq); [apply orel_refl|]. intros tv ? _ _ <-.
      cbn. unfold same_but_index. cbn. repeat (split; [reflexivity || assumption|]). assumption.
    Qed.

    Lemma run_same_past ticks x y :
      same_but_index [] x y -> (forall t, In t ticks -> (timestamp_sec t <= T)%Z) -> time_ordered ticks ->
      orel (same_but_index ticks)
           (foldM (tick_step cfg s1 fast te lg hl) x ticks) (foldM (tick_step cfg s2 fast te lg hl) y ticks).
    Proof.
      intros H0. induction ticks as [|t ticks IH] using rev_ind; intros HT Ho; [exact H0|].
      rewrite !foldM_snoc. apply time_ordered_snoc in Ho as [Ho1 Ho2].
      apply (orel_bind (same_but_index ticks)).
      - apply IH; auto. intros. apply HT. apply in_or_app. auto.
      - intros a b _ _ Hab. apply tick_step_same_past; auto. apply HT. apply in_or_app. right. left. reflexivity.
    Qed.

    Theorem execute_same_past ticks l :
      (forall t, In t ticks -> (timestamp_sec t <= T)%Z) -> time_ordered ticks ->
      ExecuteTrader cfg s1 fast te lg hl ticks l = ExecuteTrader cfg s2 fast te lg hl ticks l.
    Proof.
      intros HT Ho. unfold ExecuteTrader. destruct ticks as [|t ticks]; [reflexivity|].
      apply bind_ext. intros s0 Hs0. apply orel_eq.
      apply (orel_bind (same_but_index (t :: ticks))).
      - apply run_same_past; auto. unfold exec_init in Hs0. inv_done.
        unfold same_but_index. cbn. repeat (split; [reflexivity|]). unfold side_inv. destruct h1, h2; cbn; auto.
      - intros x y _ _ (E1 & E2 & E3 & E4 & E5 & E6 & E7 & E8 & _). cbn.
        unfold exec_result. rewrite E1, E4, E5, E6, E8. reflexivity.
    Qed.
  End SameMachineState.
End Pairs.
