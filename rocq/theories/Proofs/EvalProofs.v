(** Evaluation over windows: termination and characterisation of the loop. *)
From Coq Require Import ZArith Bool List Lia String.
From Verif.Model Require Import Outcome Machine Types Account History SideInput Indicators TimeUtil Eval.
From Verif.Spec Require Import SeriesSpec HistorySpec RunSpec EvalSpec TimeSpec.
From Verif.Proofs Require Import Base TimeProofs SubsetProofs RunPairs VolTotal.
Import ListNotations.
Local Open Scope Z_scope.

(** *** Window ends grow strictly. *)
Lemma normal_add t y m d s k : at_civil days_from_civil t y m d s ->
  exists mu dd, at_civil days_from_civil (AddMonthsToTimestampSec t k) (mu / 12) (mu mod 12 + 1) dd s /\
    1 <= dd <= len_of mu /\
    ((mu = mu_of y m + k /\ dd = d) \/ (mu = mu_of y m + k + 1 /\ dd = d - len_of (mu_of y m + k))).
Proof.
  intros H. rewrite (add_months t k y m d s H). destruct H as ([Hm Hd] & Hs & _).
  pose proof (length_bounds y m). pose proof (len_bounds (mu_of y m + k)). pose proof (len_bounds (mu_of y m + k + 1)).
  destruct (Z_le_gt_dec d (len_of (mu_of y m + k))) as [C|C].
  - exists (mu_of y m + k), d. split; [apply civil_in_month; lia|]. split; [lia|auto].
  - exists (mu_of y m + k + 1), (d - len_of (mu_of y m + k)). split; [|split; [lia|auto]].
    replace (first_of (mu_of y m + k) + (d - 1)) with (first_of (mu_of y m + k + 1) + (d - len_of (mu_of y m + k) - 1))
      by (rewrite first_next; lia). apply civil_in_month; lia.
Qed.

Lemma second_add_mono t k p :
  AddMonthsToTimestampSec (AddMonthsToTimestampSec t k) p < AddMonthsToTimestampSec (AddMonthsToTimestampSec t (k + 1)) p.
Proof.
  destruct (to_civil t) as (y & m & d & s & H & _).
  destruct (normal_add t y m d s k H) as (mu1 & d1 & H1 & B1 & C1).
  destruct (normal_add t y m d s (k + 1) H) as (mu2 & d2 & H2 & B2 & C2).
  rewrite (add_months _ p _ _ _ _ H1), (add_months _ p _ _ _ _ H2), !mu_decompose.
  set (mu := mu_of y m + k) in *. replace (mu_of y m + (k + 1)) with (mu + 1) in * by (unfold mu; lia).
  pose proof (len_bounds mu). pose proof (len_bounds (mu + 1)).
  pose proof (len_bounds (mu + p)). pose proof (len_bounds (mu + p + 1)). pose proof (len_bounds (mu + p + 1 + 1)).
  pose proof (first_next (mu + p)). pose proof (first_next (mu + p + 1)).
  replace (mu + 1 + p) with (mu + p + 1) in * by lia.
  destruct C1 as [[-> ->]|[-> ->]], C2 as [[-> ->]|[-> ->]];
    repeat match goal with |- context [?a + 1 + p] => replace (a + 1 + p) with (a + p + 1) by lia end; try lia.
Qed.

(** *** Nothing diverges by itself. *)
Definition quiet {A} (x : outcome A) : Prop := x <> Diverged.

Lemma quiet_bind {A B} (x : outcome A) (f : A -> outcome B) : quiet x -> (forall a, x = Done a -> quiet (f a)) -> quiet (bind x f).
Proof. unfold quiet. destruct x; cbn; auto; discriminate. Qed.

Lemma quiet_done {A} (a : A) : quiet (Done a).
Proof. discriminate. Qed.

Lemma quiet_foldM {A S} (f : S -> A -> outcome S) l s : (forall s a, quiet (f s a)) -> quiet (foldM f s l).
Proof.
  intros H. revert s. induction l as [|a l IH]; intros s; cbn; [apply quiet_done|]. apply quiet_bind; auto.
Qed.

Section Quiet.
  Context {M : machine}.

  Lemma quiet_assert b : quiet (assert_ b).
  Proof. unfold assert_, quiet. destruct asserts_on, b; discriminate. Qed.

  Lemma quiet_at {A} (l : list A) i : quiet (at_ l i).
  Proof.
    unfold at_, quiet. repeat match goal with |- context [match ?x with _ => _ end] => destruct x end; discriminate.
  Qed.

  Ltac qt := repeat first
    [ apply quiet_done | apply quiet_assert | apply quiet_at
    | apply quiet_bind; [|intros ? _]
    | match goal with |- quiet (if ?b then _ else _) => destruct b
                    | |- quiet (match ?b with _ => _ end) => destruct b
                    | |- quiet (let _ := _ in _) => cbv zeta
                    | |- quiet Undefined => discriminate | |- quiet Thrown => discriminate | |- quiet AssertFail => discriminate end ].

  Lemma quiet_order c o t a : quiet (ExecuteOrder c o t a).
  Proof.
    unfold ExecuteOrder, MarketBuy, MarketSell, MarketBuyAtQuote, MarketSellAtQuote, StopBuy, StopSell, StopBuyAtQuote,
      StopSellAtQuote, LimitBuy, LimitSell, LimitBuyAtQuote, LimitSellAtQuote, BuyAtQuote, SellAtQuote, BuyBase, SellBase.
    qt.
  Qed.

  Lemma quiet_signals_loop s n p acc : quiet (signals_loop s n p acc).
  Proof. revert p acc. induction n as [|n IH]; intros; cbn; qt; auto. Qed.

  Lemma quiet_side side t sig prev : quiet (side_input_part side t sig prev).
  Proof.
    unfold side_input_part, GetSideInputIndexHint, GetSideInputTimestamp, GetSideInputSignals. qt. apply quiet_signals_loop.
  Qed.

  Definition never_diverges (te : trader_emitter) : Prop :=
    forall st t sig b q, te_update te st t sig b q <> Diverged.

  Lemma quiet_execute_fast cfg side te lg hl ticks l : never_diverges te ->
    quiet (ExecuteTrader cfg side true te lg hl ticks l).
  Proof.
    intros Ht. unfold ExecuteTrader. destruct ticks as [|t0 ticks]; [apply quiet_done|].
    apply quiet_bind; [unfold exec_init, NewVolatility, LastN_check; qt|]. intros s0 _.
    apply quiet_bind; [|intros; apply quiet_done]. apply quiet_foldM. intros s t. unfold tick_step.
    apply quiet_bind; [apply quiet_side|]. intros [sig prev] _.
    apply quiet_bind. { apply quiet_foldM. intros [[a n] l1] o. unfold order_step. apply quiet_bind; [apply quiet_order|]. intros [[|] a'] _; apply quiet_done. }
    intros [[a n] l2] _. destruct (feqb _ _); [apply quiet_done|].
    apply quiet_bind; [apply Ht|]. intros [ts os] _. qt.
  Qed.

  Lemma quiet_execute cfg side fast te lg hl ticks l : never_diverges te -> ordered timestamp_sec ticks ->
    quiet (ExecuteTrader cfg side fast te lg hl ticks l).
  Proof.
    intros Ht Ho. pose proof (quiet_execute_fast cfg side te lg hl ticks l Ht) as Q. destruct fast; [exact Q|].
    pose proof (fast_irrelevant cfg side te lg hl ticks l Ho) as F. unfold orel in F. unfold quiet in *. intros E. rewrite E in F.
    destruct (ExecuteTrader cfg side true te lg hl ticks l) as [[? ?]| | | |]; auto.
  Qed.

  Lemma quiet_summary cfg ec te ps : quiet (eval_summary cfg ec te ps).
  Proof. unfold eval_summary, GetGeometricAverage. destruct ps; qt. Qed.
End Quiet.

(** *** Filtering an ordered list. *)
Lemma ordered_alt {T} (ts : T -> Z) l : ordered ts l <->
  (match l with [] => True | x :: l' => (forall y, In y l' -> ts x <= ts y) /\ ordered ts l' end).
Proof.
  destruct l as [|x l]; [split; [auto|intros _ [|?] ? ? ? E; discriminate]|]. split.
  - intros H. split.
    + intros y Hy. apply In_nth_error in Hy as [j Hj]. apply (H O (S j) x y); auto. lia.
    + intros i j a b Ha Hb Hij. apply (H (S i) (S j) a b); auto. lia.
  - intros [H1 H2] [|i] [|j] a b Ha Hb Hij; try lia; cbn in *.
    + injection Ha as <-. apply H1. eapply nth_error_In; eauto.
    + apply (H2 i j); auto. lia.
Qed.

Lemma ordered_filter {T} (ts : T -> Z) f l : ordered ts l -> ordered ts (filter f l).
Proof.
  induction l as [|x l IH]; [auto|]. intros H. apply ordered_alt in H as [H1 H2]. cbn. destruct (f x); auto.
  apply ordered_alt. split; auto. intros y Hy. apply filter_In in Hy as [Hy _]. auto.
Qed.

Section Loop.
  Context {M : machine}.
  Context (cfg : account_config) (ec : evaluation_config) (history : list ohlc_tick)
          (side : option side_input) (te : trader_emitter) (lg : logger) (hl : bool).

  Definition starts_clean : Prop :=
    0 < ec_start_timestamp_sec ec \/
    (ec_start_timestamp_sec ec = 0 /\ forall t, In t history -> 0 <= timestamp_sec t).

  Context (Ho : ordered timestamp_sec history).

  Lemma in_interval_ticks start end_ : 0 < start \/ (start = 0 /\ forall t, In t history -> 0 <= timestamp_sec t) -> 0 < end_ ->
    filter (fun t => in_interval start end_ (timestamp_sec t)) history = ticks_in history start end_.
  Proof.
    intros Hs He. unfold ticks_in. apply filter_ext_in. intros t Ht. unfold in_interval.
    rewrite (proj2 (Z.leb_gt end_ 0)) by lia. cbn [orb]. f_equal.
    destruct Hs as [Hs|[-> Hs]]; [rewrite (proj2 (Z.leb_gt start 0)) by lia; reflexivity|].
    cbn [Z.leb orb]. symmetry. apply Z.leb_le. auto.
  Qed.

  (** One iteration, in terms of the ticks of the window. *)
  Lemma step_window k ps l start end_ :
    eval_window ec k = (start, end_) -> end_ <= ec_end_timestamp_sec ec -> start <= end_ \/ start <= 0 \/ end_ <= 0 ->
    eval_step cfg ec history side te lg hl (k, ps, l) =
      match filter (fun t => in_interval start end_ (timestamp_sec t)) history with
      | [] => Done (inl (k + 1, ps, l))
      | ticks =>
        do '(res, l) <- ExecuteTrader cfg side (fast_eval ec) te lg hl ticks l ;
        assert_ (fltb (fofZ 0) (r_start_value res)) ;;
        assert_ (fltb (fofZ 0) (r_start_price res) && fltb (fofZ 0) (r_end_price res)) ;;
        let p := {| p_start_timestamp_sec := start; p_end_timestamp_sec := end_; p_result := res;
                    p_final_gain := fdiv (r_end_value res) (r_start_value res);
                    p_base_final_gain := fdiv (r_end_price res) (r_start_price res) |} in
        if evaluation_period_months ec =? 0 then Done (inr (ps ++ [p], l)) else Done (inl (k + 1, ps ++ [p], l))
      end.
  Proof.
    intros E He Hse. unfold eval_step. rewrite E. rewrite Z.gtb_ltb, (proj2 (Z.ltb_ge _ _)) by lia.
    pose proof (subset_spec timestamp_sec history start end_ Ho Hse) as S.
    destruct (HistorySubset timestamp_sec history start end_) as [b e]. destruct S as [[S1 S2] S3]. rewrite <- S3.
    destruct (Nat.eqb_spec b e) as [->|Hne].
    - unfold range. rewrite Nat.sub_diag. reflexivity.
    - destruct (Nat.ltb_spec e b); [lia|].
      assert (L : List.length (range history b e) = (e - b)%nat).
      { unfold range. rewrite firstn_length, skipn_length. lia. }
      destruct (range history b e) as [|x r]; [cbn in L; lia|]. reflexivity.
  Qed.

  (** *** Positive period. *)
  Section Positive.
    Context (Hp : 0 < evaluation_period_months ec).

    Lemma window_pos k : eval_window ec k = (window_start ec k, window_end ec k).
    Proof. unfold eval_window. rewrite Z.gtb_ltb, (proj2 (Z.ltb_lt _ _) Hp). unfold window_end, window_start. cbv zeta iota. reflexivity. Qed.

    Lemma end_step k : window_end ec k < window_end ec (k + 1).
    Proof. apply second_add_mono. Qed.

    Lemma end_grows k1 k2 : k1 <= k2 -> window_end ec k1 + (k2 - k1) <= window_end ec k2.
    Proof.
      intros H. replace k2 with (k1 + (k2 - k1)) by lia. assert (Hn : 0 <= k2 - k1) by lia. revert Hn.
      generalize (k2 - k1). intros n. replace (k1 + n - k1) with n by lia. revert n.
      apply (natlike_ind (fun n => window_end ec k1 + n <= window_end ec (k1 + n))).
      - rewrite !Z.add_0_r. lia.
      - intros n Hn IH. pose proof (end_step (k1 + n)). replace (k1 + Z.succ n) with (k1 + n + 1) by lia. lia.
    Qed.

    Lemma add_grows t k : 0 < k -> t < AddMonthsToTimestampSec t k.
    Proof.
      intros Hk. destruct (to_civil t) as (y & m & d & s & H & _). rewrite (add_months t k y m d s H).
      rewrite (at_civil_first _ _ _ _ _ H). pose proof (first_gap (mu_of y m) k ltac:(lia)). lia.
    Qed.

    Lemma start_before_end k : window_start ec k < window_end ec k.
    Proof. apply add_grows. exact Hp. Qed.

    Lemma start_grows k : 0 <= k -> ec_start_timestamp_sec ec <= window_start ec k /\ (0 < k -> ec_start_timestamp_sec ec < window_start ec k).
    Proof.
      intros Hk. unfold window_start. destruct (Z.eq_dec k 0) as [->|Hne].
      - split; [|lia]. destruct (to_civil (ec_start_timestamp_sec ec)) as (y & m & d & s & H & _).
        rewrite (add_months _ 0 y m d s H), Z.add_0_r. rewrite <- (at_civil_first _ _ _ _ _ H). lia.
      - pose proof (add_grows (ec_start_timestamp_sec ec) k ltac:(lia)). lia.
    Qed.

    (** The number of windows that end in time. *)
    Lemma window_count : exists K, 0 <= K <= Z.max 0 (ec_end_timestamp_sec ec - ec_start_timestamp_sec ec) /\
      forall k, 0 <= k -> (window_end ec k <= ec_end_timestamp_sec ec <-> k < K).
    Proof.
      set (e := ec_end_timestamp_sec ec). set (s := ec_start_timestamp_sec ec).
      pose proof (start_before_end 0) as S0. destruct (start_grows 0 ltac:(lia)) as [S1 _]. fold s in S1.
      assert (J : forall n : nat, (exists K, 0 <= K <= Z.of_nat n /\ forall k, 0 <= k -> (window_end ec k <= e <-> k < K)) \/
                                 window_end ec (Z.of_nat n) <= e).
      { induction n as [|n IH].
        - destruct (Z_le_gt_dec (window_end ec 0) e) as [C|C]; [right; exact C|left; exists 0]. split; [lia|].
          intros k Hk. pose proof (end_grows 0 k Hk). lia.
        - destruct IH as [(K & HK & H)|H]; [left; exists K; split; [lia|exact H]|].
          destruct (Z_le_gt_dec (window_end ec (Z.of_nat (S n))) e) as [C|C]; [right; exact C|left; exists (Z.of_nat (S n))]. split; [lia|].
          intros k Hk. destruct (Z_lt_ge_dec k (Z.of_nat (S n))) as [L|G].
          + pose proof (end_grows k (Z.of_nat n) ltac:(lia)). lia.
          + pose proof (end_grows (Z.of_nat (S n)) k ltac:(lia)). lia. }
      destruct (J (Z.to_nat (e - s))) as [(K & HK & H)|H].
      - exists K. split; [lia|exact H].
      - pose proof (end_grows 0 (Z.of_nat (Z.to_nat (e - s))) ltac:(lia)). lia.
    Qed.

    (** The loop is the fold over the windows. *)
    Lemma eval_loop_windows K fuel k ps l :
      starts_clean -> (forall k, 0 <= k -> (window_end ec k <= ec_end_timestamp_sec ec <-> k < K)) ->
      0 <= k <= K -> (Z.to_nat (K - k) < fuel)%nat ->
      eval_loop cfg ec history side te lg hl fuel (k, ps, l)
      = foldM (evaluate_window cfg ec side te lg hl history) (ps, l)
              (map (fun j => (window_start ec j, window_end ec j)) (map (fun i => k + Z.of_nat i) (seq 0 (Z.to_nat (K - k))))).
    Proof.
      intros Hc HK Hk Hf. remember (Z.to_nat (K - k)) as n eqn:En. revert fuel k ps l Hk Hf En.
      induction n as [|n IH]; intros fuel k ps l Hk Hf En; (destruct fuel as [|fuel]; [lia|]).
      - cbn [eval_loop]. unfold eval_step. rewrite (window_pos k).
        assert (k = K) by lia. subst k. specialize (HK K ltac:(lia)). rewrite Z.gtb_ltb, (proj2 (Z.ltb_lt _ _)) by lia. reflexivity.
      - pose proof (proj2 (HK k ltac:(lia)) ltac:(lia)) as He. pose proof (start_before_end k) as Hse.
        destruct (start_grows k ltac:(lia)) as [G1 G2].
        cbn [eval_loop]. rewrite (step_window k ps l _ _ (window_pos k) He ltac:(lia)).
        assert (C1 : 0 < window_start ec k \/ (window_start ec k = 0 /\ forall t, In t history -> 0 <= timestamp_sec t)).
        { destruct Hc as [Hc|[Hc1 Hc2]]; [left; lia|]. destruct (Z.eq_dec (window_start ec k) 0); [right; auto|left; lia]. }
        rewrite (in_interval_ticks _ _ C1) by lia.
        cbn [seq map foldM]. replace (k + Z.of_nat 0) with k by lia.
        assert (Hshift : map (fun i => k + Z.of_nat i) (seq 1 n) = map (fun i => (k + 1) + Z.of_nat i) (seq 0 n)).
        { rewrite <- seq_shift, map_map. apply map_ext. intros. lia. }
        rewrite Hshift. unfold evaluate_window at 1. cbn [fst snd].
        destruct (ticks_in history (window_start ec k) (window_end ec k)) as [|x r].
        + cbn [bind]. apply IH; lia.
        + rewrite !bind_assoc. apply bind_ext. intros [res l1] _. rewrite !bind_assoc. apply bind_ext. intros [] _.
          try rewrite !bind_assoc. apply bind_ext. intros [] _. cbv zeta. rewrite (proj2 (Z.eqb_neq _ _)) by lia.
          cbn [bind]. apply IH; lia.
    Qed.
  End Positive.

  (** The periods produced by the fold. *)
  Lemma fold_periods ws ps l ps' l' :
    foldM (evaluate_window cfg ec side te lg hl history) (ps, l) ws = Done (ps', l') ->
    exists new, ps' = ps ++ new /\
      Forall2 (fun (w : Z * Z) p => let (start, end_) := w in period_reports cfg side (fast_eval ec) te (ticks_in history start end_) start end_ p)
              (filter (fun w : Z * Z => let (start, end_) := w in match ticks_in history start end_ with [] => false | _ => true end) ws) new.
  Proof.
    revert ps l. induction ws as [|[start end_] ws IH]; intros ps l H.
    - injection H as <- <-. exists []. rewrite app_nil_r. split; [reflexivity|constructor].
    - cbn [foldM] in H. apply bind_done in H as ([ps1 l1] & H1 & H2). destruct (IH _ _ H2) as (new & -> & F).
      unfold evaluate_window in H1. cbn [fst snd] in H1. cbn [filter]. destruct (ticks_in history start end_) as [|x r] eqn:Et.
      + injection H1 as -> ->. exists new. auto.
      + apply bind_done in H1 as ([res l2] & E1 & H1). apply bind_done in H1 as (u1 & _ & H1). apply bind_done in H1 as (u2 & _ & H1).
        injection H1 as <- <-. eexists (_ :: new). rewrite <- app_assoc. split; [reflexivity|]. constructor; [|exact F].
        unfold period_reports. cbn [p_start_timestamp_sec p_end_timestamp_sec p_result p_final_gain p_base_final_gain]. rewrite Et.
        repeat (split; [reflexivity|]). split; [|repeat split].
        unfold run_quietly. rewrite (logger_irrelevant cfg side (fast_eval ec) te null_logger lg false hl (x :: r) tt l).
        rewrite E1. reflexivity.
  Qed.
End Loop.
