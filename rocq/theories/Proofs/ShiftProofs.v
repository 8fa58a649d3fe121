(** Moving a history in time. *)
From Coq Require Import String ZArith Bool List Lia.
From Verif.Model Require Import Outcome Machine Types Search Account History SideInput Indicators TimeUtil Eval Traders.
From Verif.Spec Require Import SideInputSpec RunSpec SeriesSpec HistorySpec EvalSpec ShiftSpec.
From Verif.Proofs Require Import Base SubsetProofs RunPairs SimProofs TimeProofs.
Import ListNotations.
Local Open Scope Z_scope.

Lemma search_loop_ext fuel f g first len :
  (forall i, f i = g i) -> search_loop fuel f first len = search_loop fuel g first len.
Proof.
  intros H. revert first len. induction fuel as [|fuel IH]; intros first len; cbn; [reflexivity|].
  destruct len; [reflexivity|]. rewrite H. destruct (g _); apply IH.
Qed.

Lemma search_ext f g first len : (forall i, f i = g i) -> search f first len = search g first len.
Proof. apply search_loop_ext. Qed.

Lemma shift_ltb a b d : ((a + d <? b + d) = (a <? b))%Z.
Proof. apply Bool.eq_iff_eq_true; rewrite !Z.ltb_lt; lia. Qed.

Lemma lower_bound_shift {T} (ts : T -> Z) (f : T -> T) d l x :
  (forall t, ts (f t) = ts t + d) -> lower_bound ts (map f l) (x + d) = lower_bound ts l x.
Proof.
  intros Hf. unfold lower_bound. rewrite map_length. apply search_ext. intros i.
  rewrite nth_error_map. destruct (nth_error l i); cbn; [|reflexivity]. rewrite Hf. apply shift_ltb.
Qed.

Section Side.
  Context {M : machine} (d : Z).

  Definition shift_si (s : side_input) : side_input :=
    SideInput (num_signals s) (map (fun x => x + d) (timestamp_sec_history s)) (data s).

  Lemma at_map {A B} (f : A -> B) l i : at_ (map f l) i = omap f (at_ l i).
  Proof.
    unfold at_. destruct (i <? 0); [reflexivity|]. rewrite nth_error_map.
    destruct (nth_error l (Z.to_nat i)); reflexivity.
  Qed.

  Lemma at_shift_ltb l i t :
    (do x <- at_ (map (fun x => x + d) l) i ; Done (t + d <? x)) = (do x <- at_ l i ; Done (t <? x)).
  Proof. rewrite at_map. destruct (at_ l i); cbn; try reflexivity. rewrite shift_ltb. reflexivity. Qed.

  Lemma upper_shift l first t :
    upper_bound_from (map (fun x => x + d) l) first (t + d) = upper_bound_from l first t.
  Proof.
    unfold upper_bound_from. rewrite map_length. apply search_ext. intros i.
    rewrite nth_error_map. destruct (nth_error l i); cbn; [|reflexivity]. rewrite shift_ltb. reflexivity.
  Qed.

  Lemma hint_shift s t prev :
    GetSideInputIndexHint (shift_si s) (t + d) prev = GetSideInputIndexHint s t prev.
  Proof.
    unfold GetSideInputIndexHint, GetSideInputIndex. cbn [shift_si timestamp_sec_history].
    rewrite map_length, !at_shift_ltb, !upper_shift.
    replace (do x <- at_ (map (fun x => x + d) (timestamp_sec_history s)) prev ; assert_ (t + d >=? x))
      with (do x <- at_ (timestamp_sec_history s) prev ; assert_ (t >=? x)); [reflexivity|].
    rewrite at_map. destruct (at_ _ prev); cbn; try reflexivity. f_equal.
    apply Bool.eq_iff_eq_true; rewrite !Z.geb_le; lia.
  Qed.

  Lemma signals_loop_shift s n pos acc : signals_loop (shift_si s) n pos acc = signals_loop s n pos acc.
  Proof.
    revert pos acc. induction n as [|n IH]; intros pos acc; cbn [signals_loop]; [reflexivity|].
    cbn [shift_si data]. apply bind_ext. intros x _. apply IH.
  Qed.

  Lemma side_shift s t sig prev :
    side_input_part (Some (shift_si s)) (later d t) sig prev = side_input_part (Some s) t sig prev.
  Proof.
    unfold side_input_part. cbn [later timestamp_sec]. rewrite hint_shift.
    destruct (GetSideInputIndexHint _ _ _) as [i| | | |]; cbn [bind]; try reflexivity.
    destruct (i >=? 0); [|reflexivity].
    unfold GetSideInputTimestamp. cbn [shift_si timestamp_sec_history]. rewrite at_map.
    destruct (at_ _ i) as [ts| | | |]; cbn [bind omap]; try reflexivity.
    replace (timestamp_sec t + d - (ts + d)) with (timestamp_sec t - ts) by lia.
    unfold GetSideInputSignals, GetNumberOfRecords. cbn [shift_si timestamp_sec_history num_signals].
    rewrite map_length, signals_loop_shift. reflexivity.
  Qed.

  Lemma side_loop n h si prev si' p' :
    foldM (side_input_step n) (si, prev) h = Done (si', p') ->
    si' = SideInput (num_signals si) (timestamp_sec_history si ++ map sr_timestamp_sec h)
                    (data si ++ concat (map sr_signal h)).
  Proof.
    revert si prev. induction h as [|r h IH]; intros si prev H; cbn in H.
    - injection H as <- <-. cbn. rewrite !app_nil_r. destruct si; reflexivity.
    - inv_done. specialize (IH _ _ H). cbn in IH. rewrite <- !app_assoc in IH. exact IH.
  Qed.

  Lemma new_side_shift h s s' :
    NewSideInput h = Done s -> NewSideInput (map (later_record d) h) = Done s' -> s' = shift_si s.
  Proof.
    unfold NewSideInput. destruct h as [|r h]; [discriminate|].
    change (map (later_record d) (r :: h)) with (later_record d r :: map (later_record d) h).
    cbn [later_record sr_signal]. fold (later_record d r).
    change (later_record d r :: map (later_record d) h) with (map (later_record d) (r :: h)).
    intros H1 H2. unfold omap in H1, H2.
    destruct (foldM _ _ (r :: h)) as [[x p]| | | |] eqn:E1; try discriminate. injection H1 as <-.
    destruct (foldM _ _ (map _ _)) as [[y q]| | | |] eqn:E2; try discriminate. injection H2 as <-.
    apply side_loop in E1. apply side_loop in E2. subst x y. unfold shift_si.
    cbn [num_signals timestamp_sec_history data fst app]. rewrite !map_map.
    f_equal.
  Qed.
End Side.

Section Shift.
  Context {M : machine} (d : Z).

  Definition RT (t1 t2 : ohlc_tick) : Prop :=
    t2 = later d t1 /\ 0 < timestamp_sec t1 /\ 0 < timestamp_sec t2.

  Lemma RT_list ticks : after_epoch d ticks -> Forall2 RT ticks (map (later d) ticks).
  Proof.
    induction ticks as [|t ticks IH]; intros H; constructor.
    - destruct (H t (or_introl eq_refl)). split; [reflexivity|]. cbn. lia.
    - apply IH. intros x Hx. apply H. right. exact Hx.
  Qed.

  Lemma exec_shift cfg o t a : ExecuteOrder cfg o (later d t) a = ExecuteOrder cfg o t a.
  Proof. reflexivity. Qed.

  Definition RV (v1 v2 : volatility) : Prop :=
    Forall2 (fun t1 t2 => t2 = later d t1) (fst v1) (fst v2) /\ snd v1 = snd v2.

  Lemma vol_shift v1 v2 t1 t2 base quote :
    (exists k, d = k * kSecondsPerDay) -> RV v1 v2 -> RT t1 t2 ->
    orel RV (vol_Update kSecondsPerDay v1 t1 base quote) (vol_Update kSecondsPerDay v2 t2 base quote).
  Proof.
    intros Hd [H1 H2] (-> & P1 & P2). unfold vol_Update. rewrite H2.
    set (s0 := VolState _ _ _ _ _).
    eapply orel_mono.
    - apply (update_sim vol_handler vol_handler kSecondsPerDay d
               (fun t1 t2 => t2 = later d t1) eq).
      + intros a b ->. reflexivity.
      + intros a b ->. unfold flat_tick, later. cbn. f_equal. lia.
      + intros a b l l' e e' <- He. unfold vol_handler.
        destruct He as [o1 o2 n1 n2 ->|n1 n2 ->|r1 r2 n1 n2 ->]; apply orel_refl.
      + intros ts. unfold at_time, later. reflexivity.
      + intros u1 u2 ->. unfold merged, later. reflexivity.
      + reflexivity.
      + right. unfold kSecondsPerDay in *. repeat split; try assumption; lia.
      + split; [exact H1|reflexivity].
    - intros x y [A B]. split; assumption.
  Qed.

  (** A trader state d seconds later; the state of a new trader has time 0. *)
  Definition moved (z1 z2 : Z) : Prop := (z1 = 0 /\ z2 = 0) \/ z2 = z1 + d.

  Definition RS_rb (s1 s2 : rebalancing_state) : Prop :=
    rb_base s2 = rb_base s1 /\ rb_quote s2 = rb_quote s1 /\ rb_close s2 = rb_close s1 /\
    moved (rb_timestamp s1) (rb_timestamp s2).

  Lemma rb_shift c s1 s2 t1 t2 sig b q :
    RS_rb s1 s2 -> RT t1 t2 ->
    orel (fun x y => RS_rb (fst x) (fst y) /\ Forall2 eq (snd x) (snd y))
         (rebalancing_update c s1 t1 sig b q) (rebalancing_update c s2 t2 sig b q).
  Proof.
    intros (E1 & E2 & E3 & E4) (-> & P1 & P2). unfold rebalancing_update.
    apply orel_assert.
    { cbn [later timestamp_sec] in *. rewrite !Z.gtb_ltb. apply Bool.eq_iff_eq_true. rewrite !Z.ltb_lt.
      destruct E4 as [[-> ->]| ->]; lia. }
    apply orel_assert; [reflexivity|]. apply orel_assert; [reflexivity|].
    cbn [orel fst snd later close timestamp_sec]. split.
    - repeat split; cbn; right; reflexivity.
    - induction (rebalancing_orders _ _ _ _); constructor; auto.
  Qed.

  Definition RS_sp (s1 s2 : stop_state) : Prop :=
    sp_base s2 = sp_base s1 /\ sp_quote s2 = sp_quote s1 /\ sp_close s2 = sp_close s1 /\
    sp_mode s2 = sp_mode s1 /\ stop_order_price s2 = stop_order_price s1 /\
    ((sp_mode s1 = NONE /\ sp_timestamp s1 = 0 /\ sp_timestamp s2 = 0) \/
     sp_timestamp s2 = sp_timestamp s1 + d).

  Lemma sp_shift c s1 s2 t1 t2 sig b q :
    RS_sp s1 s2 -> RT t1 t2 ->
    orel (fun x y => RS_sp (fst x) (fst y) /\ Forall2 eq (snd x) (snd y))
         (stop_update c s1 t1 sig b q) (stop_update c s2 t2 sig b q).
  Proof.
    intros (E1 & E2 & E3 & E4 & E5 & E6) (-> & P1 & P2). unfold stop_update.
    cbn [later timestamp_sec close] in *.
    apply orel_assert.
    { rewrite !Z.gtb_ltb. apply Bool.eq_iff_eq_true. rewrite !Z.ltb_lt.
      destruct E6 as [(_ & -> & ->)| ->]; lia. }
    apply orel_assert; [reflexivity|]. apply orel_assert; [reflexivity|].
    set (m := stop_mode _ _ _). rewrite E4.
    assert (Hm : m <> NONE) by (unfold m, stop_mode; destruct (fleb _ _); discriminate).
    eapply (orel_bind eq).
    - destruct E6 as [(Em & F1 & F2)|F].
      + rewrite Em. assert (negb (mode_eqb m NONE) = true) as -> by (destruct m; auto; contradiction).
        rewrite !orb_true_r. apply orel_refl.
      + replace (timestamp_sec t1 + d >=? sp_timestamp s2 + max_allowed_gap_sec)
          with (timestamp_sec t1 >=? sp_timestamp s1 + max_allowed_gap_sec)
          by (apply Bool.eq_iff_eq_true; rewrite !Z.geb_le; lia).
        unfold UpdateStopOrderPrice. rewrite E5.
        replace (timestamp_sec t1 + d - sp_timestamp s2) with (timestamp_sec t1 - sp_timestamp s1) by lia.
        apply orel_refl.
    - intros stop ? _ _ <-. unfold EmitStopOrder. cbn [sp_mode sp_base sp_quote stop_order_price].
      eapply (orel_bind eq); [apply orel_refl|]. intros os ? _ _ <-.
      cbn [orel fst snd]. split.
      + repeat split; cbn; auto.
      + induction os; constructor; auto.
  Qed.

  (** The initial volatility. *)
  Lemma RV0 v : NewVolatility 0 kSecondsPerDay = Done v -> RV v v /\ RV v v.
  Proof.
    unfold NewVolatility. intros H. inv_done. repeat split; constructor.
  Qed.

  Lemma built_in_simulates cfg s1 s2 fast te :
    built_in te -> (fast = false -> exists k, d = k * kSecondsPerDay) ->
    (forall t1 t2 sig prev, RT t1 t2 -> side_input_part s1 t1 sig prev = side_input_part s2 t2 sig prev) ->
    exists RS, simulates cfg cfg s1 s2 fast te te RT eq eq RS RV RV.
  Proof.
    intros Hte Hd Hside.
    assert (X : forall RS : te_state te -> te_state te -> Prop,
      (forall s1 s2 t1 t2 sig b q, RS s1 s2 -> RT t1 t2 ->
        orel (fun x y => RS (fst x) (fst y) /\ Forall2 eq (snd x) (snd y))
         (te_update te s1 t1 sig b q) (te_update te s2 t2 sig b q)) ->
      RS (te_new te) (te_new te) -> simulates cfg cfg s1 s2 fast te te RT eq eq RS RV RV).
    { intros RS HU H0. split.
      - exact Hside.
      - intros o1 o2 t1 t2 a1 a2 -> (-> & _) ->. rewrite exec_shift.
        eapply orel_mono; [apply orel_refl|]. intros x y ->. auto.
      - intros t1 t2 (-> & _). reflexivity.
      - intros u1 u2 t1 t2 sig a1 a2 Hu HT ->. apply HU; auto.
      - intros Hf v1 v2 t1 t2 Hv HT. apply vol_shift; auto.
      - intros Hf v1 v2 t1 t2 a1 a2 Hv HT ->. apply vol_shift; auto.
      - reflexivity.
      - exact H0.
      - apply RV0. }
    destruct Hte as [[c ->]|[c ->]].
    - exists RS_rb. apply X; [intros; apply rb_shift; auto|].
      repeat split; try reflexivity. left. auto.
    - exists RS_sp. apply X; [intros; apply sp_shift; auto|].
      repeat split; try reflexivity. left. auto.
  Qed.

  Definition side_later (s1 s2 : option side_input) : Prop :=
    match s1, s2 with
    | None, None => True
    | Some s1, Some s2 => s2 = shift_si d s1
    | _, _ => False
    end.

  Lemma side_inputs_later h s1 s2 : side_inputs d h s1 s2 -> side_later s1 s2.
  Proof.
    destruct h as [h|], s1 as [s1|], s2 as [s2|]; cbn; try tauto. intros [H1 H2].
    eapply new_side_shift; eauto.
  Qed.

  Lemma side_later_part s1 s2 : side_later s1 s2 ->
    forall t1 t2 sig prev, RT t1 t2 -> side_input_part s1 t1 sig prev = side_input_part s2 t2 sig prev.
  Proof.
    intros H t1 t2 sig prev (-> & _). destruct s1, s2; try contradiction; [|reflexivity].
    cbn in H. subst. symmetry. apply side_shift.
  Qed.

  Theorem run_shift cfg s1 s2 fast te lg1 lg2 hl1 hl2 ticks l1 l2 :
    built_in te -> (fast = false -> exists k, d = k * kSecondsPerDay) -> side_later s1 s2 ->
    after_epoch d ticks ->
    orel (fun x y => fst x = fst y)
         (ExecuteTrader cfg s1 fast te lg1 hl1 ticks l1)
         (ExecuteTrader cfg s2 fast te lg2 hl2 (map (later d) ticks) l2).
  Proof.
    intros Hte Hd Hs Hp.
    destruct (built_in_simulates cfg s1 s2 fast te Hte Hd (side_later_part s1 s2 Hs)) as [RS HS].
    eapply orel_mono.
    - eapply (simulation cfg cfg s1 s2 fast te te lg1 lg2 hl1 hl2 _ _ _ _ _ _ HS eq); eauto using RT_list.
      intros x1 x2 f1 f2 e1 e2 [A1 A2 A3 A4 A5 A6 A7 A8] (-> & _) (-> & _).
      unfold exec_result. rewrite A1, A5. cbn [later close].
      destruct fast; [reflexivity|]. unfold vol_Get. destruct A6 as [_ ->], A7 as [_ ->]. reflexivity.
    - intros x y H. exact H.
  Qed.

  Lemma limit_gtb x x' : later_limit d x x' -> (x' >? 0) = (x >? 0).
  Proof. intros [(A & B & ->)|[A ->]]; rewrite !Z.gtb_ltb; [|reflexivity]. apply Bool.eq_iff_eq_true; rewrite !Z.ltb_lt; lia. Qed.

  Lemma subset_shift h s e s' e' :
    later_limit d s s' -> later_limit d e e' ->
    HistorySubset timestamp_sec (map (later d) h) s' e' = HistorySubset timestamp_sec h s e.
  Proof.
    intros Hs He. unfold HistorySubset. rewrite (limit_gtb _ _ Hs), (limit_gtb _ _ He), map_length.
    assert (X : forall x x', later_limit d x x' -> (x >? 0) = true ->
      lower_bound timestamp_sec (map (later d) h) x' = lower_bound timestamp_sec h x).
    { intros x x' H Hx. rewrite Z.gtb_ltb in Hx. apply Z.ltb_lt in Hx. destruct H as [(_ & _ & ->)|[H _]]; [|lia].
      apply lower_bound_shift. reflexivity. }
    f_equal; [destruct (s >? 0) eqn:E|destruct (e >? 0) eqn:E]; auto.
  Qed.

  Lemma range_shift h b e : range (map (later d) h) b e = map (later d) (range h b e).
  Proof. unfold range. rewrite skipn_map, firstn_map. reflexivity. Qed.

  Lemma in_range {A} (h : list A) b e x : In x (range h b e) -> In x h.
  Proof.
    unfold range. intros H. assert (X : forall n (l : list A), In x (firstn n l) -> In x l).
    { intros n l Hn. rewrite <- (firstn_skipn n l). apply in_or_app. auto. }
    apply X in H. rewrite <- (firstn_skipn b h). apply in_or_app. auto.
  Qed.

  Lemma later_averages f ps ps' :
    (forall p p', later_period d p p' -> f p' = f p) -> Forall2 (later_period d) ps ps' ->
    GetAverage ps' f = GetAverage ps f.
  Proof.
    intros Hf HP. unfold GetAverage.
    assert (L : length ps' = length ps) by (clear -HP; induction HP; cbn; auto).
    assert (X : forall z, fold_left (fun sum e => fadd sum (f e)) ps' z = fold_left (fun sum e => fadd sum (f e)) ps z).
    { clear L. induction HP as [|p p' ps ps' H HP IH]; intros z; cbn; [reflexivity|]. rewrite (Hf _ _ H). apply IH. }
    rewrite X, L. destruct HP; reflexivity.
  Qed.

  Lemma summary_shift cfg ec ec' te ps ps' :
    Forall2 (later_period d) ps ps' ->
    orel (later_evaluation d) (eval_summary cfg ec te ps) (eval_summary cfg ec' te ps').
  Proof.
    intros HP. unfold eval_summary.
    assert (F1 : forall p p', later_period d p p' -> p_final_gain p' = p_final_gain p) by (intros p p' H; apply H).
    assert (F2 : forall p p', later_period d p p' -> p_base_final_gain p' = p_base_final_gain p) by (intros p p' H; apply H).
    assert (F3 : forall p p', later_period d p p' -> p_result p' = p_result p) by (intros p p' H; apply H).
    eapply (orel_bind eq).
    - unfold GetGeometricAverage.
      assert (L : length ps' = length ps) by (clear -HP; induction HP; cbn; auto). rewrite L.
      assert (X : forall z, fold_left (fun mul e => dmul mul (f2d (fdiv (p_final_gain e) (p_base_final_gain e)))) ps' z
                          = fold_left (fun mul e => dmul mul (f2d (fdiv (p_final_gain e) (p_base_final_gain e)))) ps z).
      { clear L. induction HP as [|p p' ps ps' H HP IH]; intros z; cbn; [reflexivity|].
        rewrite (F1 _ _ H), (F2 _ _ H). apply IH. }
      rewrite X. destruct HP; apply orel_refl.
    - intros sc ? _ _ <-. cbn. unfold later_evaluation. cbn.
      repeat (split; [reflexivity || assumption|]).
      split; [apply later_averages; auto|]. split; [apply later_averages; auto|].
      split; apply later_averages; auto; intros p p' H; rewrite (F3 _ _ H); reflexivity.
  Qed.

  Theorem evaluation_shift cfg fast s1 s2 te lg1 lg2 hl1 hl2 history start end_ start' end_' l1 l2 fuel :
    built_in te -> (fast = false -> exists k, d = k * kSecondsPerDay) -> side_later s1 s2 ->
    after_epoch d history -> ordered timestamp_sec history -> (start <= end_ \/ end_ <= 0) ->
    later_limit d start start' -> later_limit d end_ end_' ->
    (exists t, In t history /\ in_interval start end_ (timestamp_sec t) = true) -> (0 < fuel)%nat ->
    orel (fun x y => later_evaluation d (fst x) (fst y))
      (EvaluateTrader cfg (EvaluationConfig start end_ 0 fast) history s1 te lg1 hl1 fuel l1)
      (EvaluateTrader cfg (EvaluationConfig start' end_' 0 fast) (map (later d) history) s2 te lg2 hl2 fuel l2).
  Proof.
    intros Hte Hd Hs Hp Ho Hse Ls Le Hne Hf. destruct fuel as [|fuel]; [lia|].
    set (ec := EvaluationConfig start end_ 0 fast). set (ec' := EvaluationConfig start' end_' 0 fast).
    assert (Z0 : forall t, AddMonthsToTimestampSec t 0 = t).
    { intros t. destruct (to_civil t) as (y & m & dd & s & H & _). rewrite (add_months _ 0 y m dd s H), Z.add_0_r.
      symmetry. apply at_civil_first. exact H. }
    unfold EvaluateTrader. eapply (orel_bind (fun x y => Forall2 (later_period d) (fst x) (fst y))).
    - cbn [eval_loop]. unfold eval_step, eval_window. cbn [ec ec' ec_start_timestamp_sec ec_end_timestamp_sec evaluation_period_months fast_eval].
      rewrite !Z0. change (0 >? 0) with false. cbv iota zeta. rewrite !Z.gtb_ltb, !Z.ltb_irrefl.
      rewrite (subset_shift history start end_ start' end_') by assumption.
      pose proof (subset_spec timestamp_sec history start end_ Ho ltac:(tauto)) as SS.
      destruct (HistorySubset timestamp_sec history start end_) as [b e].
      destruct (b =? e)%nat eqn:Ebe.
      { apply Nat.eqb_eq in Ebe. subst e. exfalso. destruct SS as (_ & SS). destruct Hne as (t & Ht & Hi).
        unfold range in SS. rewrite Nat.sub_diag in SS. cbn in SS.
        assert (In t (filter (fun x => in_interval start end_ (timestamp_sec x)) history)) by (apply filter_In; auto).
        rewrite <- SS in H. exact H. }
      destruct (e <? b)%nat; [exact I|].
      rewrite range_shift. rewrite !bind_assoc.
      eapply (orel_bind (fun x y => fst x = fst y)).
      { apply (run_shift cfg s1 s2 fast te lg1 lg2 hl1 hl2); auto.
        intros t Ht. apply Hp. eapply in_range. exact Ht. }
      intros [r1 k1] [r2 k2] _ _ E. cbn [fst] in E. subst r2. cbv iota beta.
      destruct (assert_ (fltb (fofZ 0) (r_start_value r1))); cbn [bind]; try exact I.
      destruct (assert_ (fltb (fofZ 0) (r_start_price r1) && fltb (fofZ 0) (r_end_price r1))%bool); cbn [bind]; try exact I.
      change (0 =? 0) with true. cbn. constructor; [|constructor].
      unfold later_period. cbn. auto.
    - intros [p1 k1] [p2 k2] _ _ E. cbn [fst] in E.
      eapply orel_bind; [apply summary_shift; exact E|]. intros x y _ _ H. exact H.
  Qed.
End Shift.
