(** trader.cc's main: reading the input, and what is done with it. *)
From Coq Require Import ZArith String Ascii Bool Lia.
From Coq Require Import List.
From Verif.Model Require Import Outcome Machine Types Account History SideInput TimeUtil Eval
  Traders CsvLogger Proto Convert TimeText MachineIEEE Files Programs.
From Verif.Spec Require Import SeriesSpec HistorySpec ReaderSpec SideInputSpec RunSpec EvalSpec ProtoSpec ProgramSpec.
From Verif.Proofs Require Import Base ProtoProofs SubsetProofs EvalProofs RunPairs ProgramProofs.
From Verif.Proofs Require TraderProofs BatchProofs.
From Verif.Properties Require Import HistoryProps SideInputProps.
From Verif.Properties Require TimeProps TimeTextProps.
Import ListNotations.
Local Open Scope Z_scope.

Section Main.
  Context {lm : libm} {as_ : bool}.
  Local Notation I := (ieee lm as_).
  Implicit Types (env : environment) (f : trader_flags).

  Lemma period_interval {R} (ts : R -> Z) start end_ h : 0 < start <= end_ ->
    filter (fun r => in_interval start end_ (ts r)) h = of_period ts start end_ h.
  Proof.
    intros H. unfold of_period. apply filter_ext. intros r. unfold in_interval.
    rewrite (proj2 (Z.leb_gt start 0)), (proj2 (Z.leb_gt end_ 0)) by lia. reflexivity.
  Qed.

  Lemma read_history_file env T {R} (record : msg T -> R) ts file b ms start end_ :
    0 < start <= end_ -> readable env file = Some b -> ReadDelimitedVector T b = Some (ms, Ok) ->
    ordered ts (map record ms) ->
    ReadHistory env T record ts file start end_ = Done (Some (of_period ts start end_ (map record ms))).
  Proof.
    intros Hp Hf Hv Ho. unfold ReadHistory. rewrite Hf, Hv.
    destruct (C30_subset ts (map record ms) start end_ Ho ltac:(lia)) as [_ ->].
    cbn [omap]. rewrite period_interval by exact Hp. reflexivity.
  Qed.

  Lemma read_history_broken env T {R} (record : msg T -> R) ts file start end_ :
    broken env T file -> ReadHistory env T record ts file start end_ = Done None.
  Proof.
    unfold broken, ReadHistory. destruct (readable env file) as [b|]; [|reflexivity]. intros H.
    destruct (contents_total T b) as (ms & e & Hc). rewrite (read_vector T b ms e Hc) in *.
    destruct e; try reflexivity. exfalso. eapply H. reflexivity.
  Qed.

  (** What main does with the ticks and side input of the period. *)
  Definition eval_config_of f (start end_ : Z) (fast : bool) : evaluation_config :=
    {| ec_start_timestamp_sec := start; ec_end_timestamp_sec := end_;
       evaluation_period_months := tf_evaluation_period_months f; fast_eval := fast |}.

  Definition trading env (sort : list (@evaluation_result I) -> list (@evaluation_result I))
             fuel sched f start end_ (ticks : list (@ohlc_tick I)) (side : option (@side_input I)) : outcome trader_result :=
    if tf_evaluate_batch f then
      do emitters <- GetBatchOfTraders (tf_trader f) ;
      do results <- EvaluateBatchOfTraders (GetAccountConfig f) (eval_config_of f start end_ true) ticks side emitters sched ;
      do results <- std_sort sort results ;
      Done (TraderResult EXIT_SUCCESS (Some (Ranking (PrintBatchEvalResults results))) [])
    else
      do emitter <- GetTrader (tf_trader f) ;
      match OpenLogFile env f (tf_exchange_log f) with
      | None => Done (TraderResult EXIT_FAILURE None [])
      | Some exchange =>
      match OpenLogFile env f (tf_trader_log f) with
      | None => Done (TraderResult EXIT_FAILURE None (opened (tf_exchange_log f) exchange))
      | Some trader =>
        do '(r, logs) <- EvaluateTrader (GetAccountConfig f) (eval_config_of f start end_ false) ticks side emitter
                           (@csv_logger I) true fuel (exchange, trader) ;
        Done (TraderResult EXIT_SUCCESS
                (Some (Table (te_name emitter) (map table_row_of (er_period r))))
                (opened (tf_exchange_log f) (fst logs) ++ opened (tf_trader_log f) (snd logs)))
      end
      end.

  Lemma main_reads env sort fuel sched f start end_ h side :
    @trading_data lm as_ env f start end_ h side ->
    exists si, side_matches side si /\
      trader_main env sort fuel sched f = trading env sort fuel sched f start end_ (of_period timestamp_sec start end_ h) si.
  Proof.
    intros [[T1 T2] Hp (b & Hb & (ms & Hv & ->) & Ho) Hs]. unfold trader_main. rewrite T1, T2.
    rewrite (read_history_file env OhlcTickType (@tick_of_msg lm as_) (@timestamp_sec I) _ b ms start end_ Hp Hb Hv Ho). cbn [bind].
    destruct Hs as [E|hs E (bs & Hbs & (mss & Hvs & ->) & Hos) Hg].
    - exists None. split; [exact Logic.I|]. rewrite E. reflexivity.
    - destruct (C39_accepts _ Hg) as (si & Hsi). exists (Some si). split; [split; assumption|].
      unfold nonempty. destruct (String.eqb_spec (tf_input_side f) ""); [contradiction|]. cbn [negb].
      rewrite (read_history_file env SideInputRecordType (@side_of_msg lm as_) (@sr_timestamp_sec I) _ bs mss start end_ Hp Hbs Hvs Hos).
      cbn [bind]. match goal with |- context [NewSideInput ?l] => replace (NewSideInput l) with (Done si) by (symmetry; exact Hsi) end. reflexivity.
  Qed.

  Lemma once cfg ec history side te (lg : @logger I) hl fuel l r l' :
    ordered timestamp_sec history -> evaluation_period_months ec = 0 ->
    ec_start_timestamp_sec ec <= ec_end_timestamp_sec ec ->
    let ticks := filter (fun t => in_interval (ec_start_timestamp_sec ec) (ec_end_timestamp_sec ec) (timestamp_sec t)) history in
    ticks <> [] ->
    EvaluateTrader cfg ec history side te lg hl fuel l = Done (r, l') ->
    exists res, ExecuteTrader cfg side (fast_eval ec) te lg hl ticks l = Done (res, l') /\
      er_period r = [{| p_start_timestamp_sec := ec_start_timestamp_sec ec; p_end_timestamp_sec := ec_end_timestamp_sec ec;
                        p_result := res;
                        p_final_gain := fdiv (r_end_value res) (r_start_value res);
                        p_base_final_gain := fdiv (r_end_price res) (r_start_price res) |}].
  Proof.
    intros Ho Hp Hse ticks Hne. destruct fuel as [|fuel]; [discriminate|].
    assert (W : eval_window ec 0 = (ec_start_timestamp_sec ec, ec_end_timestamp_sec ec)).
    { unfold eval_window. rewrite Hp. change (0 >? 0) with false. cbv iota zeta. f_equal.
      apply TimeProps.C25_zero. }
    pose proof (step_window cfg ec history side te lg hl Ho 0 [] l _ _ W (Z.le_refl _) ltac:(lia)) as S.
    fold ticks in S. destruct ticks as [|x r0] eqn:Et; [congruence|]. rewrite Hp in S. change (0 =? 0) with true in S. cbv iota zeta in S.
    unfold EvaluateTrader. cbn [eval_loop]. rewrite S. intros H.
    apply bind_done in H as ([ps l1] & H & H2). apply bind_done in H as (q & H & Hq).
    apply bind_done in H as ([res l2] & E1 & H). apply bind_done in H as (u1 & _ & H). apply bind_done in H as (u2 & _ & H).
    injection H as <-. injection Hq as <- <-. apply bind_done in H2 as (r' & Hr & Er). injection Er as -> ->.
    exists res. split; [exact E1|]. unfold eval_summary in Hr. apply bind_done in Hr as (sc & _ & Hr). injection Hr as <-. reflexivity.
  Qed.

  (** Without streams nothing is written. *)
  Lemma foldM_keeps {A S} (P : S -> Prop) (g : S -> A -> outcome S) l : (forall s a s', P s -> g s a = Done s' -> P s') ->
    forall s s', P s -> foldM g s l = Done s' -> P s'.
  Proof.
    intros Hg. induction l as [|a l IH]; intros s s' Hs H; cbn in H; [injection H as <-; exact Hs|].
    apply bind_done in H as (s1 & H1 & H). eapply IH; [eapply Hg; eassumption|exact H].
  Qed.

  Lemma csv_silent cfg side fast te hl ticks res l' :
    ExecuteTrader cfg side fast te (@csv_logger I) hl ticks (None, None) = Done (res, l') -> l' = (None, None).
  Proof.
    unfold ExecuteTrader. destruct ticks as [|t0 ticks]; [intros H; injection H as _ <-; reflexivity|].
    intros H. apply bind_done in H as (s0 & Hi & H). apply bind_done in H as (s & Hf & H). injection H as _ <-.
    refine (foldM_keeps (fun s => x_log te (@csv_logger I) s = (None, None) :> csv_streams) _ _ _ _ _ _ Hf).
    - clear. intros s t s' Hl H. unfold tick_step in H. apply bind_done in H as ([sig prev] & _ & H).
      apply bind_done in H as ([[a n] l2] & Ho & H).
      assert (l2 = (None, None) :> csv_streams) as ->.
      { refine (foldM_keeps (fun s => snd s = (None, None) :> csv_streams) _ _ _ _ _ _ Ho).
        - clear. intros [[a n] l] o s' Hl H. unfold order_step in H. apply bind_done in H as ([[|] a'] & _ & H); injection H as <-; cbn in *; [|exact Hl].
          rewrite Hl. destruct hl; reflexivity.
        - cbn [snd]. rewrite Hl. destruct hl; reflexivity. }
      destruct (feqb _ _); [injection H as <-; reflexivity|].
      apply bind_done in H as ([ts os] & _ & H). apply bind_done in H as (bv & _ & H). apply bind_done in H as (tv & _ & H).
      injection H as <-. cbn. destruct hl; reflexivity.
    - unfold exec_init in Hi. apply bind_done in Hi as (bv & _ & Hi). apply bind_done in Hi as (tv & _ & Hi). injection Hi as <-. reflexivity.
  Qed.

  Lemma row_of_period start end_ (res : @execution_result I) :
    row_shows start end_ res (table_row_of
      {| p_start_timestamp_sec := start; p_end_timestamp_sec := end_; p_result := res;
         p_final_gain := fdiv (r_end_value res) (r_start_value res);
         p_base_final_gain := fdiv (r_end_price res) (r_start_price res) |}).
  Proof.
    split; try reflexivity; try apply TimeTextProps.C68_round_trip; cbn; intros v ->; reflexivity.
  Qed.
End Main.
