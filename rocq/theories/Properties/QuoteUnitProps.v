(** C117: an evaluation does not depend on the unit in which the quote currency is counted. *)
From Coq Require Import String Reals ZArith Bool List Lra Lia.
From Flocq Require Import Core.
From Verif.Model Require Import Outcome Machine MachineR Types Account SideInput Eval Traders.
From Verif.Spec Require Import QuoteUnitSpec.
From Verif.Proofs Require Import Base RunPairs SimProofs QuoteUnitProofs.
Import ListNotations.
Local Open Scope R_scope.

Section Quoted.
  Context (sh : R -> string) (as_ : bool) (k : R).
  Local Notation E := (exact sh as_).

  (** The stop trader with any account; the rebalancing trader if its quote balance is a
      whole number of quote units and a unit exceeds its threshold of 0.000001. *)
  Definition indifferent (te : @trader_emitter E) (cfg : @account_config E) : Prop :=
    (exists c, te = stop_emitter c) \/ (exists c, te = rebalancing_emitter c /\ visible_units sh as_ k cfg).

  Lemma indifferent_same te cfg : 0 < k -> indifferent te cfg ->
    exists V f, same_trader sh as_ k te V f /\ V (InitAccount cfg).
  Proof.
    intros Hk [[c ->]|(c & -> & HV)].
    - exists (fun _ => True), (sp_in sh as_ k). split; [apply stop_same; exact Hk|exact I].
    - exists (W sh as_ k), (rb_in sh as_ k). split; [apply rebalancing_same; exact Hk|]. exact HV.
  Qed.

  Theorem C117_run : forall cfg side fast te lg lg' hl hl' ticks l l',
    0 < k -> indifferent te cfg ->
    omap fst (@ExecuteTrader E (account_in sh as_ k cfg) side fast te lg' hl' (map (tick_in sh as_ k) ticks) l')
    = omap (fun x => result_in sh as_ k (fst x)) (@ExecuteTrader E cfg side fast te lg hl ticks l).
  Proof.
    intros cfg side fast te lg lg' hl hl' ticks l l' Hk Hi.
    destruct (indifferent_same te cfg Hk Hi) as (V & f & HT & HV).
    symmetry. apply orel_eq. unfold omap.
    eapply orel_bind; [apply (run_quote sh as_ k Hk cfg side te V f HT HV fast lg lg' hl hl' ticks l l')|].
    intros x y _ _ E0. symmetry. exact E0.
  Qed.

  Theorem C117_evaluation : forall cfg ec history side te lg lg' hl hl' fuel l l',
    0 < k -> indifferent te cfg ->
    omap fst (@EvaluateTrader E (account_in sh as_ k cfg) ec (map (tick_in sh as_ k) history) side te lg' hl' fuel l')
    = omap (fun x => evaluation_in sh as_ k (fst x)) (@EvaluateTrader E cfg ec history side te lg hl fuel l).
  Proof.
    intros cfg ec history side te lg lg' hl hl' fuel l l' Hk Hi.
    destruct (indifferent_same te cfg Hk Hi) as (V & f & HT & HV).
    symmetry. apply orel_eq. unfold omap.
    eapply orel_bind; [apply (evaluate_quote sh as_ k Hk cfg side te V f HT HV ec lg lg' hl hl' history fuel l l')|].
    intros x y _ _ E0. symmetry. exact E0.
  Qed.

  (** Concrete case: the default balances and units, in cents (k = 100). *)
  Definition usual_fees : @fee_config E := @FeeConfig E (26 / 10000) 0 0.
  Definition usual_config : @account_config E :=
    @AccountConfig E 1 1000 (1 / 100000) (1 / 100) usual_fees usual_fees usual_fees (1 / 2) (1 / 2).
  Lemma C117_ex : k = 100 -> visible_units sh as_ k usual_config.
  Proof.
    intros ->. unfold visible_units, usual_config. cbn. split; [|lra]. exists 100000%Z. lra.
  Qed.
End Quoted.

(** The rebalancing trader compares balances with the absolute amount 0.000001: with a
    balanced portfolio and a quote balance of 0.000001 it places no order; in a currency
    of a tenth of the value it places two. *)
Theorem C117_threshold_refuted : forall sh as_, exists c t st os,
  let te := @rebalancing_emitter (exact sh as_) c in
  te_update te (te_new te) t [] (1 : R) (1 / 1000000 : R) = Done (st, []) /\
  exists st', te_update te (te_new te) (tick_in sh as_ 10 t) [] (1 : R) (10 * (1 / 1000000) : R) = Done (st', os) /\ length os = 2%nat.
Proof.
  intros sh as_. set (E := exact sh as_).
  exists (@RebalancingConfig E (1 / 2) (1 / 10)), (@OhlcTick E 1 (1 / 1000000) (1 / 1000000) (1 / 1000000) (1 / 1000000) 1).
  eexists. eexists. cbn [te_update te_new rebalancing_emitter]. unfold rebalancing_update, tick_in.
  cbn [timestamp_sec close open high low volume rb_timestamp rebalancing_init].
  change (1 >? 0)%Z with true. rewrite assert_true. cbn [bind].
  change (@fltb E) with Rlt_bool. change (@fofZ E 0) with 0.
  rewrite (Rlt_bool_true 0 1) by lra. cbn [orb].
  rewrite (Rlt_bool_true 0 (1 / 1000000)) by lra.
  rewrite (Rlt_bool_true 0 (10 * (1 / 1000000))) by lra.
  rewrite !assert_true. cbn [bind].
  unfold rebalancing_orders, flit. cbn [alpha epsilon]. cbn [fadd fsub fmul fdiv fltb fofZ exact E].
  replace (1 * (1 / 1000000) / (1 * (1 / 1000000) + 1 / 1000000)) with (1 / 2) by field.
  replace (1 * (10 * (1 / 1000000)) / (1 * (10 * (1 / 1000000)) + 10 * (1 / 1000000))) with (1 / 2) by field.
  rewrite (Rlt_bool_false (1 / 2 * (1 + 1 / 10)) (1 / 2)) by lra.
  rewrite (Rlt_bool_false (1 / 2) (1 / 2 * (1 - 1 / 10))) by lra.
  rewrite (Rlt_bool_false (1 / 1000000) (1 / 1000000)) by lra. rewrite andb_false_r.
  split; [reflexivity|].
  rewrite (Rlt_bool_true (1 / 1000000) 1) by lra.
  rewrite (Rlt_bool_true (1 / 1000000) (10 * (1 / 1000000))) by lra. cbn [andb].
  rewrite (Rlt_bool_true (1 / 2 * (1 + 1 / 10)) 1) by lra.
  replace (1 / 2 * (1 + 1 / 10) * (10 * (1 / 1000000)) / (1 - 1 / 2 * (1 + 1 / 10))) with (11 / 900000) by field.
  replace (1 / 2 * (1 - 1 / 10) * (10 * (1 / 1000000)) / (1 - 1 / 2 * (1 - 1 / 10))) with (9 / 1100000) by field.
  rewrite (Rlt_bool_true (10 * (1 / 1000000)) (11 / 900000)) by lra.
  rewrite (Rlt_bool_true (11 / 900000) (100 * (10 * (1 / 1000000)))) by lra.
  rewrite (Rlt_bool_true (9 / 1100000) (10 * (1 / 1000000))) by lra.
  rewrite (Rlt_bool_true (10 * (1 / 1000000) / 100) (9 / 1100000)) by lra.
  cbn [andb app]. eexists. split; [reflexivity|reflexivity].
Qed.
