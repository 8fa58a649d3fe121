(** C53 - C59: the stop trader, the rebalancing trader and the parameter grids. *)
From Coq Require Import Reals ZArith Bool List String Lia Lra.
From Coq Require Import List.
From Flocq Require Import Core BinarySingleNaN.
From Verif.Model Require Import Outcome Machine Types Account Eval Traders MachineR MachineIEEE.
From Verif.Spec Require Import OrderSpec AccountIEEESpec TraderSpec.
From Verif.Proofs Require Import Base FloatLemmas OrderLaws FloatErr TraderProofs StopFloat RebalanceProofs RebalanceFloat.
Import ListNotations.

(** ** C53: one stop order per update *)

(** Whatever a stop trader is shown: if it returns, it has emitted, for every update,
    exactly the stop order that closes the position at some price. *)
Theorem C53_one_stop_order (M : machine) (c : stop_config) vs oss :
  orders_emitted (stop_emitter c) vs = Done oss -> exists ps, stop_prices c vs ps /\
    oss = map (fun vp => [closing_order (fst vp) (snd vp)]) (combine vs ps).
Proof.
  intros H. unfold orders_emitted in H. change (te_new (stop_emitter c)) with stop_init in H.
  pose proof H as H0. apply orders_chain in H as (ps & Hc & ->). exists ps. split; [|reflexivity].
  apply stop_prices_chain. exact Hc.
Qed.

(** It returns exactly when the timestamps are positive and increasing, the prices positive
    and the balances not both zero (with asserts compiled in; always without). *)
Theorem C53_returns (M : machine) (c : stop_config) vs :
  (exists oss, orders_emitted (stop_emitter c) vs = Done oss) <->
  (asserts_on = true -> increasing_from 0 vs /\ Forall demands vs).
Proof.
  unfold orders_emitted. change (te_new (stop_emitter c)) with stop_init. split.
  - intros (oss & H) Ha. apply orders_chain in H as (ps & Hc & _).
    exact (chain_demands c vs stop_init ps Hc Ha).
  - intros H. destruct (chain_exists c vs stop_init H) as (ps & Hc).
    eexists. apply orders_chain. eauto.
Qed.

(** On floats: for sane configurations and updates the orders are valid, with a finite
    positive price. *)
Theorem C53_valid (lm : libm) (as_ : bool) (c : @stop_config (ieee lm as_)) vs :
  ok_stop c -> Forall ok_view vs -> increasing_from 0 vs ->
  exists ps, stop_prices c vs ps /\
    Forall (fun p : f32 => is_finite p = true /\ (0 < B2R p)%R) ps /\
    forall os, orders_emitted (stop_emitter c) vs = Done os ->
      Forall (Forall (@well_formed_order (ieee lm as_))) os.
Proof.
  intros C V T. destruct (chain_exists c vs stop_init) as (ps & Hc).
  { intros _. split; [exact T|]. eapply Forall_impl; [|exact V]. intros v. apply view_demands. }
  pose proof (chain_good_init lm as_ c vs ps C V Hc) as G.
  exists ps. split; [apply stop_prices_chain; exact Hc|]. split; [exact G|].
  intros os H. apply stop_prices_chain in Hc. destruct Hc as (Hc & Hl). rewrite Hc in H.
  assert (E : os = map (fun vp => [closing_order (fst vp) (snd vp)]) (combine vs ps)) by congruence.
  subst os. clear H Hc T. revert ps G Hl. induction V as [|v vs V1 V2 IH]; intros [|p ps] G Hl; cbn; try constructor; try discriminate.
  - inversion G; subst. constructor; [|constructor]. apply amount_good; auto.
  - inversion G; subst. apply IH; auto.
Qed.

(** ** C54: the trailing stop *)

(** Between two consecutive updates of one position the stop stays or moves towards the
    price, never beyond the follow limit: for any results of exp and log. *)
Theorem C54_trailing (M : machine) (O : real_order M) (c : stop_config) vs ps i v0 v p0 p :
  stop_prices c vs ps ->
  nth_error vs i = Some v0 -> nth_error vs (S i) = Some v ->
  nth_error ps i = Some p0 -> nth_error ps (S i) = Some p ->
  ~ new_position v0 v -> follows c v p0 p.
Proof.
  intros H H1 H2 H3 H4 Hn. apply stop_prices_chain in H.
  destruct (chain_nth c vs stop_init ps H i v0 v p0 p H1 H2 H3 H4) as (_ & Hp).
  exact (follows_step O c v0 p0 v p Hp Hn).
Qed.

Theorem C54_trailing_float (lm : libm) (as_ : bool) (c : @stop_config (ieee lm as_)) vs ps i v0 v p0 p :
  stop_prices c vs ps ->
  nth_error vs i = Some v0 -> nth_error vs (S i) = Some v ->
  nth_error ps i = Some p0 -> nth_error ps (S i) = Some p ->
  ~ new_position v0 v -> follows c v p0 p.
Proof. apply (C54_trailing _ (ieee_order lm as_)). Qed.

(** Over a whole stretch of one position on floats: the stop prices are monotone. *)
Theorem C54_stretch_float (lm : libm) (as_ : bool) (c : @stop_config (ieee lm as_)) vs ps i j vi pi pj :
  ok_stop c -> Forall ok_view vs -> stop_prices c vs ps ->
  nth_error vs i = Some vi -> nth_error ps i = Some pi -> nth_error ps j = Some pj -> (i <= j)%nat ->
  (forall k v0 v, (i <= k < j)%nat -> nth_error vs k = Some v0 -> nth_error vs (S k) = Some v ->
     ~ new_position v0 v) ->
  if is_long vi then (B2R (pi : f32) <= B2R (pj : f32))%R else (B2R (pj : f32) <= B2R (pi : f32))%R.
Proof.
  intros C V H Hi Pi Pj Hij Hn.
  pose proof (chain_good_init lm as_ c vs ps C V (proj1 (stop_prices_chain _ _ _) H)) as G.
  assert (GF : forall k p, nth_error ps k = Some p -> is_finite (p : f32) = true).
  { intros k p Hk. rewrite Forall_forall in G. apply nth_error_In in Hk. apply (G p Hk). }
  assert (K : forall d, (i + d <= j)%nat -> forall p v, nth_error ps (i + d) = Some p -> nth_error vs (i + d) = Some v ->
    is_long v = is_long vi /\
    if is_long vi then (B2R (pi : f32) <= B2R (p : f32))%R else (B2R (p : f32) <= B2R (pi : f32))%R).
  { induction d as [|d IH]; intros Hd p v Hp Hv.
    - rewrite Nat.add_0_r in *. assert (p = pi) as -> by congruence. assert (v = vi) as -> by congruence.
      split; [reflexivity|]. destruct (is_long vi); apply Rle_refl.
    - destruct (nth_error ps (i + d)) as [p0|] eqn:E1.
      2:{ apply nth_error_None in E1. assert (i + S d < List.length ps)%nat by (apply nth_error_Some; congruence). lia. }
      destruct (nth_error vs (i + d)) as [v0|] eqn:E2.
      2:{ apply nth_error_None in E2. assert (i + S d < List.length vs)%nat by (apply nth_error_Some; congruence). lia. }
      destruct (IH ltac:(lia) p0 v0 eq_refl eq_refl) as (L & B).
      replace (i + S d)%nat with (S (i + d)) in * by lia.
      assert (N : ~ new_position v0 v) by (apply (Hn (i + d)%nat); auto; lia).
      assert (L' : is_long v = is_long v0).
      { destruct (Bool.bool_dec (is_long v) (is_long v0)); auto. exfalso. apply N. left. assumption. }
      split; [congruence|].
      pose proof (C54_trailing_float lm as_ c vs ps (i + d) v0 v p0 p H E2 Hv E1 Hp N) as [->|F]; [exact B|].
      pose proof (GF _ _ E1) as F0. pose proof (GF _ _ Hp) as F1. change (@flt (ieee lm as_)) with f32 in *.
      rewrite L', L in F. destruct (is_long vi); destruct F as [F _]; cbn in F;
        rewrite Bltb_ext, !ext_finite in F by (auto using finite_num).
      + destruct (Rlt_bool_spec (B2R p0) (B2R p)); [lra|discriminate].
      + destruct (Rlt_bool_spec (B2R p) (B2R p0)); [lra|discriminate]. }
  destruct H as (_ & Hl). destruct (nth_error vs j) as [vj|] eqn:Ej.
  2:{ apply nth_error_None in Ej. assert (j < List.length ps)%nat by (apply nth_error_Some; congruence). lia. }
  apply (K (j - i)%nat ltac:(lia) pj vj); replace (i + (j - i))%nat with j by lia; auto.
Qed.

(** Without rounding: the stop drifts at the configured daily rate. *)
Theorem C54_rate (sh : R -> string) (as_ : bool) (c : @stop_config (exact sh as_)) vs (ps : list R) i v0 v (p0 p : R) :
  (0 <= (stop_order_increase_per_day c : R))%R -> (0 <= (stop_order_decrease_per_day c : R) < 1)%R ->
  @stop_prices (exact sh as_) c vs ps -> (v_time v0 < v_time v)%Z ->
  nth_error vs i = Some v0 -> nth_error vs (S i) = Some v ->
  nth_error ps i = Some p0 -> nth_error ps (S i) = Some p ->
  (0 <= p0)%R -> ~ new_position v0 v -> p = followed c v0 v p0.
Proof.
  intros C1 C2 H Ht H1 H2 H3 H4 P0 Hn. apply stop_prices_chain in H.
  destruct (chain_nth c vs stop_init ps H i v0 v p0 p H1 H2 H3 H4) as (_ & Hp).
  exact (exact_step sh as_ c v0 p0 v p Hp Hn Ht P0 C1 C2).
Qed.

(** ... so over any stretch of one position it changes at most by the compounded daily rate. *)
Theorem C54_rate_stretch (sh : R -> string) (as_ : bool) (c : @stop_config (exact sh as_)) vs (ps : list R) i j vi vj (pi pj : R) :
  (0 <= (stop_order_increase_per_day c : R))%R -> (0 <= (stop_order_decrease_per_day c : R) < 1)%R ->
  @stop_prices (exact sh as_) c vs ps ->
  (forall k v0 v, nth_error vs k = Some v0 -> nth_error vs (S k) = Some v -> (v_time v0 < v_time v)%Z) ->
  nth_error vs i = Some vi -> nth_error vs j = Some vj ->
  nth_error ps i = Some pi -> nth_error ps j = Some pj -> (i <= j)%nat -> (0 < pi)%R ->
  (forall k v0 v, (i <= k < j)%nat -> nth_error vs k = Some v0 -> nth_error vs (S k) = Some v ->
     ~ new_position v0 v) ->
  if is_long vi then (pi <= pj <= pi * drift c vi vj)%R else (pi * drift c vi vj <= pj <= pi)%R.
Proof.
  intros C1 C2 H Hinc Hi Hj Pi Pj Hij P0 Hn.
  assert (K : forall d, (i + d <= j)%nat -> forall (p : R) v, nth_error ps (i + d) = Some p -> nth_error vs (i + d) = Some v ->
    is_long v = is_long vi /\
    if is_long vi then (pi <= p <= pi * drift c vi v)%R else (pi * drift c vi v <= p <= pi)%R).
  { induction d as [|d IH]; intros Hd p v Hp Hv.
    - rewrite Nat.add_0_r in *. assert (p = pi) as -> by congruence. assert (v = vi) as -> by congruence.
      split; [reflexivity|]. rewrite drift_self. destruct (is_long vi); lra.
    - destruct (nth_error ps (i + d)) as [p0|] eqn:E1.
      2:{ apply nth_error_None in E1. assert (i + S d < List.length ps)%nat by (apply nth_error_Some; congruence). lia. }
      destruct (nth_error vs (i + d)) as [v0|] eqn:E2.
      2:{ apply nth_error_None in E2. assert (i + S d < List.length vs)%nat by (apply nth_error_Some; congruence). lia. }
      destruct (IH ltac:(lia) p0 v0 eq_refl eq_refl) as (L & B).
      replace (i + S d)%nat with (S (i + d)) in * by lia.
      assert (N : ~ new_position v0 v) by (apply (Hn (i + d)%nat); auto; lia).
      assert (L' : is_long v = is_long v0).
      { destruct (Bool.bool_dec (is_long v) (is_long v0)); auto. exfalso. apply N. left. assumption. }
      split; [congruence|]. pose proof (Hinc _ _ _ E2 Hv) as T.
      pose proof (drift_pos sh as_ c vi v0) as D0. pose proof (drift_pos sh as_ c v0 v) as D1.
      assert (Q0 : (0 < p0)%R).
      { destruct (is_long vi); [lra|]. apply Rlt_le_trans with (pi * drift c vi v0)%R; [|apply B]. apply Rmult_lt_0_compat; auto. }
      pose proof (C54_rate sh as_ c vs ps (i + d) v0 v p0 p C1 C2 H T E2 Hv E1 Hp (Rlt_le _ _ Q0) N) as F.
      rewrite <- (drift_trans sh as_ c vi v0 v) by congruence.
      unfold followed in F. rewrite L', L in F. destruct (is_long vi) eqn:Lv.
      + pose proof (drift_long sh as_ c v0 v ltac:(congruence) T C1) as D.
        assert (U : (p0 * 1 <= p0 * drift c v0 v)%R) by (apply Rmult_le_compat_l; lra).
        assert (U2 : (p0 * drift c v0 v <= pi * drift c vi v0 * drift c v0 v)%R) by (apply Rmult_le_compat_r; lra).
        rewrite <- Rmult_assoc.
        destruct (Rle_dec p0 (follow_limit c v)) as [Q|Q].
        * unfold Rmin in F. destruct (Rle_dec _ _); change (@flt (exact sh as_)) with R in *; lra.
        * lra.
      + pose proof (drift_cash sh as_ c v0 v ltac:(congruence) T C2) as D.
        assert (U : (p0 * drift c v0 v <= p0 * 1)%R) by (apply Rmult_le_compat_l; lra).
        assert (U2 : (pi * drift c vi v0 * drift c v0 v <= p0 * drift c v0 v)%R) by (apply Rmult_le_compat_r; lra).
        rewrite <- Rmult_assoc.
        destruct (Rle_dec (follow_limit c v) p0) as [Q|Q].
        * unfold Rmax in F. destruct (Rle_dec _ _); change (@flt (exact sh as_)) with R in *; lra.
        * lra. }
  apply (K (j - i)%nat ltac:(lia) pj vj); replace (i + (j - i))%nat with j by lia; auto.
Qed.

(** ** C55: new positions *)
Theorem C55_first (M : machine) (c : stop_config) vs ps v p :
  stop_prices c vs ps -> nth_error vs 0 = Some v -> nth_error ps 0 = Some p -> p = start_price c v.
Proof.
  intros H Hv Hp. apply stop_prices_chain in H.
  destruct (chain_first c stop_init vs ps v p H Hv Hp) as (_ & Hn).
  unfold next_stop in Hn. rewrite restart_first in Hn. congruence.
Qed.

Theorem C55_new_position (M : machine) (c : stop_config) vs ps i v0 v p :
  stop_prices c vs ps -> nth_error vs i = Some v0 -> nth_error vs (S i) = Some v ->
  nth_error ps (S i) = Some p -> new_position v0 v -> p = start_price c v.
Proof.
  intros H H1 H2 H4 Hn. pose proof H as (_ & Hl). apply stop_prices_chain in H.
  destruct (nth_error ps i) as [p0|] eqn:H3.
  2:{ apply nth_error_None in H3. assert (i < List.length vs)%nat by (apply nth_error_Some; congruence). lia. }
  destruct (chain_nth c vs stop_init ps H i v0 v p0 p H1 H2 H3 H4) as (_ & Hp).
  unfold next_stop in Hp. rewrite (proj2 (restart_after v0 p0 v) Hn) in Hp. congruence.
Qed.

(** ** C56: the orders of the rebalancing trader *)

(** Every update stands alone; it yields one market order, or at most one limit sell above
    and one limit buy below the price. *)
Theorem C56_shape (M : machine) (c : rebalancing_config) vs oss :
  orders_emitted (rebalancing_emitter c) vs = Done oss ->
  Forall2 (fun v os =>
    (exists sd x, os = [Order (Some MARKET) (Some sd) (BaseAmount x) None]) \/
    exists sells buys, os = sells ++ buys /\
      (sells = [] \/ exists x p, sells = [Order (Some LIMIT) (Some SELL) (BaseAmount x) (Some p)] /\
                                 fltb (v_price v) p = true) /\
      (buys = [] \/ exists x p, buys = [Order (Some LIMIT) (Some BUY) (BaseAmount x) (Some p)] /\
                                fltb p (v_price v) = true)) vs oss.
Proof.
  intros H. apply rebalancing_run_inv in H. subst oss. induction vs as [|v vs IH]; cbn; constructor; auto.
  apply rebalancing_shape.
Qed.

(** On floats, unless the band is narrower than the float precision, all orders are valid. *)
Theorem C56_valid (lm : libm) (as_ : bool) (c : @rebalancing_config (ieee lm as_)) vs :
  ok_rebalancing c -> Forall (fun v : @view (ieee lm as_) => ok_portfolio (v_price v) (v_base v) (v_quote v)) vs ->
  increasing_from 0 vs ->
  exists oss, orders_emitted (rebalancing_emitter c) vs = Done oss /\
    List.length oss = List.length vs /\ Forall (Forall (@well_formed_order (ieee lm as_))) oss.
Proof.
  intros C V T. eexists. split; [|split].
  - unfold orders_emitted. apply rebalancing_run. intros _. split; [exact T|].
    eapply Forall_impl; [|exact V]. intros v W. apply (f_demands lm as_ _ _ _ W v); reflexivity.
  - apply map_length.
  - clear T. induction V as [|v vs W V IH]; cbn; constructor; auto. apply (f_orders lm as_ c _ _ _ C W).
Qed.

(** Without rounding: a market order exactly outside the tolerance band. *)
Theorem C56_band (sh : R -> string) (as_ : bool) (c : @rebalancing_config (exact sh as_)) (price b q : R) :
  (0 < price)%R -> (0 <= b)%R -> (0 <= q)%R -> (0 < b * price + q)%R ->
  (0 <= (alpha c : R))%R -> (0 <= (epsilon c : R))%R ->
  let os := @rebalancing_orders (exact sh as_) c price b q in
  let share := base_share b q price in
  ((alpha c * (1 + epsilon c) < share)%R <-> exists x, os = [@market_order (exact sh as_) SELL x]) /\
  ((share < alpha c * (1 - epsilon c))%R <-> exists x, os = [@market_order (exact sh as_) BUY x]).
Proof.
  intros P B Q W A E0 os share. unfold os. rewrite exact_orders by exact W. cbv zeta. fold share.
  change (@flt (exact sh as_)) with R in *.
  destruct (Rlt_bool_spec (alpha c * (1 + epsilon c)) share) as [L|L].
  - split; split; intros H; auto; [eauto|nra|destruct H as (x & H); discriminate].
  - destruct (Rlt_bool_spec share (alpha c * (1 - epsilon c))) as [L2|L2].
    + split; split; intros H; auto; [lra|destruct H as (x & H); discriminate|eauto].
    + split; (split; [intros; lra|]); intros (x & H); exfalso;
        destruct (_ && _) in H; try discriminate; destruct (Rlt_bool _ 1) in H;
        repeat (destruct (_ && _) in H); cbn in H; discriminate.
Qed.

(** ** C57: a market rebalance restores the target *)
Theorem C57_market_rebalance (sh : R -> string) (as_ : bool) (c : @rebalancing_config (exact sh as_)) cfg a t (price : R) sd x :
  ideal cfg a t price -> (0 < price)%R -> (0 <= (base_balance a : R))%R -> (0 <= (quote_balance a : R))%R ->
  (0 < (base_balance a : R) * price + quote_balance a)%R ->
  (0 <= (alpha c : R) <= 1)%R -> (0 <= (epsilon c : R))%R ->
  @rebalancing_orders (exact sh as_) c price (base_balance a) (quote_balance a) = [market_order sd x] ->
  exists a', ExecuteOrder cfg (market_order sd x) t a = Done (true, a') /\
    base_share (base_balance a') (quote_balance a') price = alpha c /\
    ((base_balance a' : R) * price + quote_balance a' = (base_balance a : R) * price + quote_balance a)%R.
Proof.
  intros Id P B Q W A E0 H. rewrite exact_orders in H by exact W. cbv zeta in H.
  change (@flt (exact sh as_)) with R in *.
  set (b := base_balance a) in *. set (q := quote_balance a) in *.
  assert (H1 : (0 <= alpha c * (b * price + q))%R) by (apply Rmult_le_pos; lra).
  assert (H2 : (0 <= alpha c * (b * price + q) * epsilon c)%R) by (apply Rmult_le_pos; lra).
  assert (H3 : (0 <= (1 - alpha c) * (b * price + q))%R) by (apply Rmult_le_pos; lra).
  destruct (Rlt_bool_spec (alpha c * (1 + epsilon c)) (base_share b q price)) as [L|L].
  - injection H as <- <-. apply share_gt in L; auto.
    set (x := (((1 - alpha c) * (b * price + q) - q) / price)%R).
    assert (X : (x * price = (1 - alpha c) * (b * price + q) - q)%R) by (unfold x; field; lra).
    assert (0 < x)%R by (apply Rmult_lt_reg_r with price; auto; rewrite X; lra).
    assert (x <= b)%R by (apply Rmult_le_reg_r with price; auto; rewrite X; lra).
    destruct (ideal_sell sh as_ cfg a t price x Id P) as (a' & G1 & G2 & G3); [auto|].
    exists a'. split; [exact G1|]. rewrite G2, G3. fold b q.
    assert (S : ((b - x) * price + (q + x * price) = b * price + q)%R) by ring. split; [|exact S].
    apply share_eq; rewrite S; [lra|]. replace ((b - x) * price)%R with (b * price - x * price)%R by ring.
    rewrite X. ring.
  - destruct (Rlt_bool_spec (base_share b q price) (alpha c * (1 - epsilon c))) as [L2|L2].
    + injection H as <- <-. apply share_lt in L2; auto.
      set (x := ((q - (1 - alpha c) * (b * price + q)) / price)%R).
      assert (X : (x * price = q - (1 - alpha c) * (b * price + q))%R) by (unfold x; field; lra).
      assert (0 < x)%R by (apply Rmult_lt_reg_r with price; auto; rewrite X; lra).
      assert (x * price <= q)%R by (rewrite X; lra).
      destruct (ideal_buy sh as_ cfg a t price x Id P) as (a' & G1 & G2 & G3); auto.
      exists a'. split; [exact G1|]. rewrite G2, G3. fold b q.
      assert (S : ((b + x) * price + (q - x * price) = b * price + q)%R) by ring. split; [|exact S].
      apply share_eq; rewrite S; [lra|]. replace ((b + x) * price)%R with (b * price + x * price)%R by ring.
      rewrite X. ring.
    + exfalso. destruct (_ && _) in H; try discriminate; destruct (Rlt_bool _ 1) in H;
        repeat (destruct (_ && _) in H); cbn in H; discriminate.
Qed.

(** ** C58: the limit orders *)

(** The price at which the base share of the portfolio reaches s. *)
Definition edge_price (b q s : R) : R := (s * q / (b * (1 - s)))%R.
Lemma edge_price_share (b q s : R) : (0 < b)%R -> (0 < q)%R -> (0 < s < 1)%R ->
  base_share b q (edge_price b q s) = s.
Proof.
  intros B Q S. unfold edge_price.
  assert (E : (b * (s * q / (b * (1 - s))) = s * q / (1 - s))%R) by (field; lra).
  apply share_eq; rewrite E.
  - assert (0 < s * q / (1 - s))%R; [|lra]. apply Rmult_lt_0_compat; [nra|]. apply Rinv_0_lt_compat. lra.
  - field. lra.
Qed.

(** The emitted limit sell (buy): its amount restores the target share when filled at the
    price where the share reaches the band edge; its price is that price times the base
    balance. *)
Theorem C58_limit_orders (sh : R -> string) (as_ : bool) (c : @rebalancing_config (exact sh as_)) (price b q : R) sd (x P : R) :
  (0 < price)%R -> (0 <= b)%R -> (0 <= q)%R -> (0 < b * price + q)%R ->
  (0 < (alpha c : R) < 1)%R -> (0 <= (epsilon c : R) < 1)%R ->
  In (@limit_order (exact sh as_) sd x P) (@rebalancing_orders (exact sh as_) c price b q) ->
  let edge : R := match sd with SELL => (alpha c * (1 + epsilon c))%R | BUY => (alpha c * (1 - epsilon c))%R end in
  let p := edge_price b q edge in
  (0 < b)%R /\ (0 < q)%R /\ (0 < edge < 1)%R /\ P = (b * p)%R /\
  match sd with
  | SELL => base_share (b - x) (q + x * p) p = alpha c
  | BUY => base_share (b + x) (q - x * p) p = alpha c
  end.
Proof.
  intros Pp B Q W A E0 H. rewrite exact_orders in H by exact W. cbv zeta in H.
  change (@flt (exact sh as_)) with R in *.
  destruct (Rlt_bool _ _) in H; [destruct H as [H|[]]; discriminate H|].
  destruct (Rlt_bool (base_share b q price) _) in H; [destruct H as [H|[]]; discriminate H|].
  destruct (Rlt_bool_spec (1 / 1000000) b) as [Lb|]; [|destruct H].
  destruct (Rlt_bool_spec (1 / 1000000) q) as [Lq|]; [|destruct H]. cbn [andb] in H.
  assert (0 < b)%R by lra. assert (0 < q)%R by lra.
  apply in_app_or in H as [H|H].
  - destruct (Rlt_bool_spec (alpha c * (1 + epsilon c)) 1) as [L1|]; [|destruct H].
    destruct (_ && _) in H; [|destruct H]. destruct H as [H|[]]. injection H as <- <- <-. cbv zeta.
    assert (Ed : (0 < alpha c * (1 + epsilon c) < 1)%R) by (split; [nra|lra]).
    split; [auto|]. split; [auto|]. split; [exact Ed|].
    set (s := (alpha c * (1 + epsilon c))%R) in *.
    split; [unfold edge_price; field; lra|].
    pose proof (edge_price_share b q s ltac:(auto) ltac:(auto) Ed) as Sh.
    set (p := edge_price b q s) in *.
    assert (Pq : (b * p = s * q / (1 - s))%R) by (unfold p, edge_price; field; lra).
    assert (Pv : (b * p + q = q / (1 - s))%R) by (rewrite Pq; field; lra).
    assert (P0 : (0 < q / (1 - s))%R) by (apply Rmult_lt_0_compat; [lra|apply Rinv_0_lt_compat; lra]).
    apply share_eq.
    + replace ((b - b * epsilon c / (1 + epsilon c)) * p + (q + b * epsilon c / (1 + epsilon c) * p))%R with (b * p + q)%R by ring.
      rewrite Pv. lra.
    + replace ((b - b * epsilon c / (1 + epsilon c)) * p + (q + b * epsilon c / (1 + epsilon c) * p))%R with (b * p + q)%R by ring.
      replace ((b - b * epsilon c / (1 + epsilon c)) * p)%R with (b * p / (1 + epsilon c))%R by (field; lra).
      rewrite Pv, Pq. unfold s. field. fold s. lra.
  - destruct (_ && _) in H; [|destruct H]. destruct H as [H|[]]. injection H as <- <- <-. cbv zeta.
    assert (Ed : (0 < alpha c * (1 - epsilon c) < 1)%R) by (split; nra).
    split; [auto|]. split; [auto|]. split; [exact Ed|].
    set (s := (alpha c * (1 - epsilon c))%R) in *.
    split; [unfold edge_price; field; lra|].
    set (p := edge_price b q s) in *.
    assert (Pq : (b * p = s * q / (1 - s))%R) by (unfold p, edge_price; field; lra).
    assert (Pv : (b * p + q = q / (1 - s))%R) by (rewrite Pq; field; lra).
    assert (P0 : (0 < q / (1 - s))%R) by (apply Rmult_lt_0_compat; [lra|apply Rinv_0_lt_compat; lra]).
    apply share_eq.
    + replace ((b + b * epsilon c / (1 - epsilon c)) * p + (q - b * epsilon c / (1 - epsilon c) * p))%R with (b * p + q)%R by ring.
      rewrite Pv. lra.
    + replace ((b + b * epsilon c / (1 - epsilon c)) * p + (q - b * epsilon c / (1 - epsilon c) * p))%R with (b * p + q)%R by ring.
      replace ((b + b * epsilon c / (1 - epsilon c)) * p)%R with (b * p / (1 - epsilon c))%R by (field; lra).
      rewrite Pv, Pq. unfold s. field. fold s. lra.
Qed.

(** So for a base balance of exactly one the limit orders sit where the share reaches the
    band edge, and filling them there restores the target ... *)
Theorem C58_one_base_unit (sh : R -> string) (as_ : bool) (c : @rebalancing_config (exact sh as_)) (price q : R) sd (x P : R) :
  (0 < price)%R -> (0 <= q)%R -> (0 < (alpha c : R) < 1)%R -> (0 <= (epsilon c : R) < 1)%R ->
  In (@limit_order (exact sh as_) sd x P) (@rebalancing_orders (exact sh as_) c price 1%R q) ->
  match sd with
  | SELL => base_share 1%R q P = (alpha c * (1 + epsilon c))%R /\ base_share (1 - x)%R (q + x * P)%R P = alpha c
  | BUY => base_share 1%R q P = (alpha c * (1 - epsilon c))%R /\ base_share (1 + x)%R (q - x * P)%R P = alpha c
  end.
Proof.
  intros Pp Q A E0 H.
  destruct (C58_limit_orders sh as_ c price 1%R q sd x P Pp) as (B & Q0 & Ed & EP & S); auto; try lra.
  rewrite Rmult_1_l in EP. subst P.
  destruct sd; (split; [apply edge_price_share; auto|exact S]).
Qed.

(** ... but for two base units at price 1 the limit sell sits at 22/9, where the share is far
    above the edge 0.55, and filling it leaves the share far above the target 0.5. *)
Theorem C58_literal_refuted (sh : R -> string) (as_ : bool) :
  let c := @RebalancingConfig (exact sh as_) (1 / 2)%R (1 / 10)%R in
  exists x P : R,
    In (@limit_order (exact sh as_) SELL x P) (@rebalancing_orders (exact sh as_) c 1%R 2%R 2%R) /\
    (base_share 2 2 1 = 1 / 2)%R /\
    (base_share 2 2 P > 7 / 10)%R /\ (base_share (2 - x) (2 + x * P) P > 6 / 10)%R.
Proof.
  intros c. exists (2 * (1 / 10) / (1 + 1 / 10))%R, (1 / 2 * (1 + 1 / 10) * 2 / (1 - 1 / 2 * (1 + 1 / 10)))%R.
  split; [|unfold base_share; split; [lra|split; lra]].
  rewrite exact_orders by lra. unfold c. cbn [alpha epsilon]. cbv zeta.
  rewrite (Rlt_bool_false (1 / 2 * (1 + 1 / 10))) by (unfold base_share; lra).
  rewrite (Rlt_bool_false (base_share 2 2 1)) by (unfold base_share; lra).
  rewrite !(Rlt_bool_true (1 / 1000000) 2) by lra. cbn [andb].
  rewrite (Rlt_bool_true (1 / 2 * (1 + 1 / 10)) 1) by lra.
  rewrite (Rlt_bool_true 1 _) by lra. rewrite (Rlt_bool_true _ (100 * 1)) by lra.
  cbn. auto.
Qed.

(** ** C59: grids *)
Theorem C59_rebalancing_grid (M : machine) (alphas epsilons : list flt) :
  grid RebalancingConfig alphas epsilons (rebalancing_batch alphas epsilons) /\
  (NoDup alphas -> NoDup epsilons -> NoDup (rebalancing_batch alphas epsilons)).
Proof.
  split; [apply grid_product|]. apply grid_nodup. intros a b a' b' H. injection H as -> ->. auto.
Qed.

Theorem C59_stop_grid (M : machine) (margins moves incs decs : list flt) :
  exists g1 g2, grid pair margins moves g1 /\ grid pair g1 incs g2 /\
    grid (fun x d => StopConfig (fst (fst x)) (snd (fst x)) (snd x) d) g2 decs
         (stop_batch margins moves incs decs) /\
    (NoDup margins -> NoDup moves -> NoDup incs -> NoDup decs -> NoDup (stop_batch margins moves incs decs)).
Proof.
  exists (flat_map (fun x => map (pair x) moves) margins).
  exists (flat_map (fun x => map (pair x) incs) (flat_map (fun x => map (pair x) moves) margins)).
  assert (E : stop_batch margins moves incs decs =
    flat_map (fun x => map (fun d => StopConfig (fst (fst x)) (snd (fst x)) (snd x) d) decs)
      (flat_map (fun x => map (pair x) incs) (flat_map (fun x => map (pair x) moves) margins))).
  { unfold stop_batch. rewrite !flat_map_flat_map. apply flat_map_ext. intros a.
    rewrite ?flat_map_flat_map, ?flat_map_map. apply flat_map_ext. intros b.
    rewrite ?flat_map_map. reflexivity. }
  split; [apply grid_product|]. split; [apply grid_product|]. rewrite E. split; [apply grid_product|].
  intros N1 N2 N3 N4. apply grid_nodup; auto.
  - intros [[a b] d] e [[a' b'] d'] e' H. cbn in H. injection H as -> -> -> ->. auto.
  - apply grid_nodup; auto; [intros ? ? ? ? H; injection H as -> ->; auto|].
    apply grid_nodup; auto. intros ? ? ? ? H; injection H as -> ->; auto.
Qed.

(** The batches of the factory: 20 and 144 traders, one per combination, with pairwise
    different names (the names identify the results). *)
Theorem C59_factory (M : machine) :
  (exists l, GetBatchOfTraders "rebalancing" = Done l /\ List.length l = 20%nat) /\
  (exists l, GetBatchOfTraders "stop" = Done l /\ List.length l = 144%nat) /\
  (asserts_on = true -> forall name, name <> "rebalancing"%string -> name <> "stop"%string ->
     GetBatchOfTraders name = AssertFail /\ GetTrader name = AssertFail).
Proof.
  split; [eexists; split; reflexivity|]. split.
  - unfold GetBatchOfTraders. cbn [String.eqb Ascii.eqb]. rewrite assert_true. eexists. split; reflexivity.
  - intros Ha name N1 N2. unfold GetBatchOfTraders, GetTrader.
    apply String.eqb_neq in N1, N2. rewrite N1, N2. unfold assert_. rewrite Ha. split; reflexivity.
Qed.

Fixpoint distinct (l : list string) : bool :=
  match l with [] => true | x :: l' => negb (existsb (String.eqb x) l') && distinct l' end.
Lemma distinct_NoDup l : distinct l = true -> NoDup l.
Proof.
  induction l as [|x l IH]; [constructor|]. cbn. rewrite andb_true_iff, negb_true_iff. intros [H1 H2].
  constructor; auto. intros H. assert (existsb (String.eqb x) l = true); [|congruence].
  apply existsb_exists. exists x. split; auto. apply String.eqb_refl.
Qed.

Definition all_names (M : machine) (name : string) : outcome (list string) :=
  do l <- GetBatchOfTraders name ; Done (map te_name l).

Theorem C59_factory_names (lm : libm) (as_ : bool) name l :
  (name = "rebalancing"%string \/ name = "stop"%string) ->
  @GetBatchOfTraders (ieee lm as_) name = Done l -> NoDup (map te_name l).
Proof.
  intros Hn H. apply distinct_NoDup.
  assert (E : bind (all_names (ieee lm as_) name) (fun ns => Done (distinct ns)) = Done true).
  { clear H. destruct Hn as [-> | ->]; destruct as_; vm_compute; reflexivity. }
  unfold all_names in E. rewrite H in E. cbn [bind] in E. congruence.
Qed.

(** ** Where the literal C56 fails, and examples *)
Section Floats.
  Context (lm : libm) (as_ : bool).
  Notation I := (ieee lm as_).
  Definition z2f (z : Z) : f32 := f32_of_Z z.
  Definition rb_zero : @rebalancing_config I := @RebalancingConfig I (@flit I 1 2) (z2f 0).
  Definition rb_tiny : @rebalancing_config I := @RebalancingConfig I (@flit I 1 10) (@flit I 1 (2 ^ 23)).
  Definition rb_quote : f32 := @flit I 8436669 64.
  Definition rb_free : @fee_config I := @FeeConfig I (z2f 0) (z2f 0) (z2f 0).
  Definition rb_account_config : @account_config I :=
    @AccountConfig I (z2f 1) (z2f 1) (z2f 0) (z2f 0) rb_free rb_free rb_free (z2f 1) (z2f 0).
  Definition rb_tick : @ohlc_tick I := @OhlcTick I 300 (z2f 1) (z2f 1) (z2f 1) (z2f 1) (z2f 1).

  Definition aborts {A} (r : outcome A) : bool := match r with AssertFail => true | _ => false end.
  (** Do all orders make ExecuteOrder abort? *)
  Definition all_abort (os : list (@order I)) : bool :=
    forallb (fun o => aborts (@ExecuteOrder I rb_account_config o rb_tick (@InitAccount I rb_account_config))) os.
End Floats.

(** With epsilon = 0, two base units at price 1, two quote units and alpha = 0.5: the trader
    emits one limit sell of amount zero, on which the exchange aborts. *)
Theorem C56_epsilon_zero_refuted (lm : libm) :
  let os := @rebalancing_orders (ieee lm true) (rb_zero lm true) (z2f 1) (z2f 2) (z2f 2) in
  List.length os = 1%nat /\ all_abort lm true os = true.
Proof. vm_compute. split; reflexivity. Qed.

(** With alpha = 0.1 and epsilon = 2^-23 the portfolio of 151 base at price 97 and
    131822.953125 quote is just outside the band: the market sell has amount zero. *)
Theorem C56_epsilon_tiny_refuted (lm : libm) :
  let os := @rebalancing_orders (ieee lm true) (rb_tiny lm true) (z2f 97) (z2f 151) (rb_quote lm true) in
  List.length os = 1%nat /\ all_abort lm true os = true.
Proof. vm_compute. split; reflexivity. Qed.

Section Examples.
  Context (lm : libm) (as_ : bool).
  Notation I := (ieee lm as_).
  Definition at_ (t p b q : Z) : @view I :=
    @View I (@OhlcTick I t (z2f p) (z2f p) (z2f p) (z2f p) (z2f 1)) [] (z2f b) (z2f q).
  (** Long; the price rises; the price falls below the stop's reach; sold: cash; a gap. *)
  Definition some_views := [at_ 300 100 1 0; at_ 600 150 1 0; at_ 900 95 1 0; at_ 1200 90 0 95; at_ 9000 80 0 95].
  Definition stop_half : @stop_config I :=
    @StopConfig I (@flit I 1 4) (@flit I 1 8) (@flit I 1 100) (@flit I 1 100).

  Lemma z2f_in lo hi z : (Z.abs z <= 2 ^ 24)%Z -> (lo <= IZR z <= hi)%R -> number_in lo hi (z2f z).
  Proof. intros Hz H. destruct (ofZ_finite z Hz) as [F E]. split; auto. unfold z2f. rewrite E. exact H. Qed.

  Lemma some_views_ok : Forall ok_view some_views /\ increasing_from 0 some_views.
  Proof.
    assert (K : forall t p b q, (1 <= p <= 1000)%Z -> (0 <= b <= 1000)%Z -> (0 <= q <= 1000)%Z -> (0 < b \/ 0 < q)%Z ->
      ok_view (at_ t p b q)).
    { intros t p b q Hp Hb Hq Hs.
      destruct (ofZ_finite b ltac:(lia)) as [Fb Eb]. destruct (ofZ_finite q ltac:(lia)) as [Fq Eq].
      split; cbn [v_price at_ v_tick close v_base v_quote]; unfold z2f; rewrite ?Eb, ?Eq.
      - apply z2f_in; [lia|]. split.
        + apply Rle_trans with (bpow radix2 0); [apply bpow_le; lia|]. cbn. apply IZR_le. lia.
        + apply Rle_trans with (bpow radix2 10); [|apply bpow_le; lia]. cbn. apply IZR_le. lia.
      - split; auto. apply IZR_le. lia.
      - split; auto. apply IZR_le. lia.
      - destruct Hs; [left|right]; apply IZR_lt; lia. }
    split.
    - repeat (constructor; [apply K; lia|]). constructor.
    - cbn. repeat split; reflexivity.
  Qed.

  Lemma stop_half_ok : ok_stop stop_half.
  Proof.
    destruct (ofZ_finite 1 ltac:(lia)) as [F1 V1]. destruct (ofZ_finite 4 ltac:(lia)) as [F4 V4].
    destruct (ofZ_finite 8 ltac:(lia)) as [F8 V8].
    assert (D : forall d : f32, is_finite d = true -> (4 <= B2R d <= 8)%R ->
      is_finite (Bdiv mode_NE (f32_of_Z 1) d) = true /\ (0 <= B2R (Bdiv mode_NE (f32_of_Z 1) d) <= 1 / 2)%R).
    { intros d Fd Hd. destruct (Bdiv_nneg (-1) 0 (f32_of_Z 1) d) as ((F & H) & _); [lia|split; [auto|rewrite V1; cbn; lra]|auto|cbn; lra|].
      split; [exact F|]. change (bpow radix2 (-1 + 0)) with (/ 2)%R in H. lra. }
    destruct (D _ F4 ltac:(lra)) as (D1 & D2). destruct (D _ F8 ltac:(lra)) as (D3 & D4).
    split; cbn [stop_order_margin stop_order_move_margin stop_half].
    - split; [exact D1|]. split; [apply D2|]. cbn [flit]. eapply Rle_trans; [apply D2|lra].
    - eapply Rle_lt_trans; [apply D2|lra].
    - split; [exact D3|]. split; [apply D4|]. eapply Rle_trans; [apply D4|].
      apply Rle_trans with (bpow radix2 0); [cbn; lra|apply bpow_le; lia].
  Qed.

  (** The first, fourth and fifth update start a position; the other two do not. *)
  Lemma some_positions :
    ~ new_position (at_ 300 100 1 0) (at_ 600 150 1 0) /\ ~ new_position (at_ 600 150 1 0) (at_ 900 95 1 0) /\
    new_position (at_ 900 95 1 0) (at_ 1200 90 0 95) /\ new_position (at_ 1200 90 0 95) (at_ 9000 80 0 95).
  Proof.
    assert (L1 : is_long (at_ 300 100 1 0) = true) by (vm_compute; reflexivity).
    assert (L2 : is_long (at_ 600 150 1 0) = true) by (vm_compute; reflexivity).
    assert (L3 : is_long (at_ 900 95 1 0) = true) by (vm_compute; reflexivity).
    assert (L4 : is_long (at_ 1200 90 0 95) = false) by (vm_compute; reflexivity).
    unfold new_position. rewrite L1, L2, L3, L4. cbn. split; [|split; [|split]]; try lia.
    all: try (intros [H|H]; [congruence|lia]); try (left; congruence).
  Qed.

  Definition rb_usual : @rebalancing_config I := @RebalancingConfig I (@flit I 1 2) (@flit I 1 8).
  (** 10 base at 10 with 50, 100 and 300 quote: market sell, limit orders, market buy. *)
  Lemma some_rebalancing :
    map (fun q => map (fun o => (o_type o, o_side o)) (@rebalancing_orders I rb_usual (z2f 10) (z2f 10) (z2f q))) [50; 100; 300]%Z
    = [[(Some MARKET, Some SELL)]; [(Some LIMIT, Some SELL)]; [(Some MARKET, Some BUY)]].
  Proof. vm_compute. reflexivity. Qed.

  Lemma rb_usual_ok : ok_rebalancing rb_usual /\ ok_portfolio (z2f 10) (z2f 10) (z2f 50).
  Proof.
    destruct (ofZ_finite 1 ltac:(lia)) as [F1 V1]. destruct (ofZ_finite 2 ltac:(lia)) as [F2 V2].
    destruct (ofZ_finite 8 ltac:(lia)) as [F8 V8].
    assert (A : is_finite (Bdiv mode_NE (f32_of_Z 1) (f32_of_Z 2)) = true /\ (B2R (Bdiv mode_NE (f32_of_Z 1) (f32_of_Z 2)) = / 2)%R).
    { destruct (Bdiv_nneg (-1) 0 (f32_of_Z 1) (f32_of_Z 2)) as ((F & _) & E); [lia|split; [auto|rewrite V1; cbn; lra]|auto|rewrite V2; cbn; lra|].
      split; [exact F|]. rewrite E, V1, V2. replace (1 / 2)%R with (bpow radix2 (-1)) by (cbn; lra).
      rewrite round_generic; [cbn; lra|exact _|]. apply format_bpow. lia. }
    assert (B : is_finite (Bdiv mode_NE (f32_of_Z 1) (f32_of_Z 8)) = true /\ (B2R (Bdiv mode_NE (f32_of_Z 1) (f32_of_Z 8)) = / 8)%R).
    { destruct (Bdiv_nneg (-3) 0 (f32_of_Z 1) (f32_of_Z 8)) as ((F & _) & E); [lia|split; [auto|rewrite V1; cbn; lra]|auto|rewrite V8; cbn; lra|].
      split; [exact F|]. rewrite E, V1, V8. replace (1 / 8)%R with (bpow radix2 (-3)) by (cbn; lra).
      rewrite round_generic; [cbn; lra|exact _|]. apply format_bpow. lia. }
    destruct A as (FA & EA), B as (FB & EB). split.
    - split; cbn [alpha epsilon rb_usual]; unfold flit; cbn [fdiv fofZ ieee]; rewrite ?EA, ?EB.
      + split; [exact FA|lra].
      + split; [exact FB|lra].
      + replace (/ 2 * / 8)%R with (bpow radix2 (-4)) by (cbn; lra). apply bpow_le. lia.
    - assert (W : (bpow radix2 (-60) <= 1)%R) by (change 1%R with (bpow radix2 0); apply bpow_le; lia).
      split; [apply z2f_in; [lia|]|apply z2f_in; [lia|]|apply z2f_in; [lia|]|].
      + split; [apply Rle_trans with (bpow radix2 0); [apply bpow_le; lia|cbn; lra]|cbn; lra].
      + split; [lra|cbn; lra].
      + split; [lra|cbn; lra].
      + unfold z2f. rewrite !(proj2 (ofZ_finite 10 ltac:(lia))), (proj2 (ofZ_finite 50 ltac:(lia))). lra.
  Qed.
End Examples.

Print Assumptions C53_one_stop_order.
Print Assumptions C53_returns.
Print Assumptions C53_valid.
Print Assumptions C54_stretch_float.
Print Assumptions C54_rate_stretch.
Print Assumptions C55_new_position.
Print Assumptions C56_shape.
Print Assumptions C56_valid.
Print Assumptions C57_market_rebalance.
Print Assumptions C58_limit_orders.
Print Assumptions C59_stop_grid.
Print Assumptions C59_factory_names.
