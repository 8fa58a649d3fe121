(** The rebalancing trader: structure of the orders, exact arithmetic; parameter grids. *)
From Coq Require Import Reals ZArith Bool List Lia Lra Psatz FinFun.
From Flocq Require Import Core.
From Verif.Model Require Import Outcome Machine Types Account Eval Traders MachineR MachineIEEE.
From Verif.Spec Require Import OrderSpec TraderSpec.
From Verif.Proofs Require Import Base OrderLaws.
Import ListNotations.

Section Any.
  Context {M : machine}.

  Lemma rebalancing_shape (c : rebalancing_config) price base quote :
    (exists sd x, rebalancing_orders c price base quote = [market_order sd x]) \/
    exists sells buys, rebalancing_orders c price base quote = sells ++ buys /\
      (sells = [] \/ exists x p, sells = [limit_order SELL x p] /\ fltb price p = true) /\
      (buys = [] \/ exists x p, buys = [limit_order BUY x p] /\ fltb p price = true).
  Proof.
    assert (S : forall (b1 b2 b3 b4 b5 b6 b7 : bool) (o1 o2 : order) (x5 x6 : order),
      (b5 = true -> exists x p, x5 = limit_order SELL x p /\ fltb price p = true) ->
      (b6 = true -> exists x p, x6 = limit_order BUY x p /\ fltb p price = true) ->
      (exists sd x, o1 = market_order sd x) -> (exists sd x, o2 = market_order sd x) ->
      let os := if b1 then [o1] else if b2 then [o2] else if b3 then
                  (if b4 then if b5 then [x5] else [] else []) ++ (if b6 then [x6] else []) else [] in
      (exists sd x, os = [market_order sd x]) \/
      exists sells buys, os = sells ++ buys /\
        (sells = [] \/ exists x p, sells = [limit_order SELL x p] /\ fltb price p = true) /\
        (buys = [] \/ exists x p, buys = [limit_order BUY x p] /\ fltb p price = true)).
    { intros b1 b2 b3 b4 b5 b6 _ o1 o2 x5 x6 H5 H6 (sd1 & y1 & ->) (sd2 & y2 & ->).
      destruct b1; [left; cbn; eauto|]. destruct b2; [left; cbn; eauto|]. right.
      destruct b3; [|exists [], []; auto]. cbv zeta.
      exists (if b4 then if b5 then [x5] else [] else []), (if b6 then [x6] else []).
      split; [reflexivity|]. split.
      - destruct b4; [|auto]. destruct b5; [|auto]. destruct (H5 eq_refl) as (x & p & -> & L). right. eauto.
      - destruct b6; [|auto]. destruct (H6 eq_refl) as (x & p & -> & L). right. eauto. }
    unfold rebalancing_orders. cbv zeta. apply S.
    - exact true.
    - intros E. apply andb_true_iff in E as [E _]. eexists _, _. split; [reflexivity|exact E].
    - intros E. apply andb_true_iff in E as [E _]. eexists _, _. split; [reflexivity|exact E].
    - eauto.
    - eauto.
  Qed.

  (** The trader's run: one list of orders per update, depending on that update only. *)
  Definition view_orders (c : rebalancing_config) (v : view) : list order :=
    rebalancing_orders c (v_price v) (v_base v) (v_quote v).

  Lemma rebalancing_run c vs : forall s,
    (asserts_on = true -> increasing_from (rb_timestamp s) vs /\ Forall demands vs) ->
    orders_from (rebalancing_emitter c) s vs = Done (map (view_orders c) vs).
  Proof.
    induction vs as [|v vs IH]; intros s H; [reflexivity|].
    cbn [orders_from rebalancing_emitter te_update]. unfold rebalancing_update.
    assert (G : forall k : unit -> outcome (rebalancing_state * list order),
      (assert_ (timestamp_sec (v_tick v) >? rb_timestamp s)%Z ;;
       assert_ (fltb (fofZ 0) (close (v_tick v))) ;;
       assert_ (fltb (fofZ 0) (v_base v) || fltb (fofZ 0) (v_quote v)) ;; k tt) = k tt).
    { intros k. destruct asserts_on eqn:Ha.
      - destruct (H eq_refl) as ((Ht & _) & Hd). inversion Hd as [|? ? (D1 & D2) _]; subst.
        unfold v_time, v_price in *.
        assert ((timestamp_sec (v_tick v) >? rb_timestamp s)%Z = true) as -> by lia.
        rewrite D1, ?assert_true. cbn [bind]. rewrite ?assert_true. cbn [bind].
        assert (fltb (fofZ 0) (v_base v) || fltb (fofZ 0) (v_quote v) = true) as -> by (apply orb_true_iff; exact D2).
        rewrite assert_true. reflexivity.
      - unfold assert_. rewrite Ha. reflexivity. }
    rewrite (G (fun _ => Done _)). cbn [bind fst snd].
    erewrite (IH _). { reflexivity. }
    intros Ha. destruct (H Ha) as ((_ & H1) & H2). inversion H2; subst. split; auto.
  Qed.

  Lemma rebalancing_run_inv c vs : forall s oss,
    orders_from (rebalancing_emitter c) s vs = Done oss -> oss = map (view_orders c) vs.
  Proof.
    induction vs as [|v vs IH]; intros s oss H; cbn in H; [injection H as <-; reflexivity|].
    apply bind_done in H as (r & H1 & H). apply bind_done in H as (rest & H2 & H3).
    unfold rebalancing_update in H1. inv_done. cbn [fst snd] in *.
    apply IH in H2. subst. reflexivity.
  Qed.
End Any.

(** ** Grids *)
Lemma grid_product {A B C} (f : A -> B -> C) xs ys :
  grid f xs ys (flat_map (fun x => map (f x) ys) xs).
Proof.
  split.
  - induction xs as [|x xs IH]; [reflexivity|]. cbn. rewrite app_length, map_length, IH. reflexivity.
  - induction xs as [|x xs IH]; intros i j a b H1 H2; [destruct i; discriminate|].
    assert (J : (j < length ys)%nat) by (apply nth_error_Some; congruence).
    destruct i as [|i]; cbn in *.
    + injection H1 as <-. rewrite nth_error_app1 by (rewrite map_length; exact J).
      apply map_nth_error. exact H2.
    + rewrite nth_error_app2 by (rewrite map_length; lia). rewrite map_length.
      replace (length ys + i * length ys + j - length ys)%nat with (i * length ys + j)%nat by lia. eauto.
Qed.

Lemma NoDup_app {A} (l1 l2 : list A) : NoDup l1 -> NoDup l2 -> (forall z, In z l1 -> In z l2 -> False) ->
  NoDup (l1 ++ l2).
Proof.
  intros H1 H2 D. induction H1 as [|x l Hn H1 IH]; [exact H2|]. cbn. constructor.
  - intros H. apply in_app_or in H as [H|H]; [contradiction|]. apply (D x); cbn; auto.
  - apply IH. intros z I1 I2. apply (D z); cbn; auto.
Qed.

Lemma grid_nodup {A B C} (f : A -> B -> C) xs ys :
  (forall a b a' b', f a b = f a' b' -> a = a' /\ b = b') -> NoDup xs -> NoDup ys ->
  NoDup (flat_map (fun x => map (f x) ys) xs).
Proof.
  intros Hf Hx Hy. induction Hx as [|x xs Hn Hx IH]; [constructor|]. cbn. apply NoDup_app; auto.
  - apply Injective_map_NoDup; auto. intros b b' E. apply Hf in E. apply E.
  - intros z H1 H2. apply in_map_iff in H1 as (b & <- & _). apply in_flat_map in H2 as (x' & I1 & I2).
    apply in_map_iff in I2 as (b' & E & _). apply Hf in E as [-> _]. contradiction.
Qed.

Lemma flat_map_flat_map {A B C} (f : A -> list B) (g : B -> list C) l :
  flat_map g (flat_map f l) = flat_map (fun x => flat_map g (f x)) l.
Proof. induction l as [|a l IH]; [reflexivity|]. cbn. rewrite flat_map_app, IH. reflexivity. Qed.

Lemma flat_map_map {A B C} (f : A -> B) (g : B -> list C) l : flat_map g (map f l) = flat_map (fun x => g (f x)) l.
Proof. induction l as [|a l IH]; [reflexivity|]. cbn. rewrite IH. reflexivity. Qed.

(** ** Exact arithmetic *)
Section Exact.
  Context (sh : R -> String.string) (as_ : bool).
  Local Notation E := (exact sh as_).
  Local Open Scope R_scope.

  Lemma share_gt (b q p s : R) : 0 < b * p + q -> s < base_share b q p <-> s * (b * p + q) < b * p.
  Proof.
    intros P. unfold base_share. split; intros H.
    - apply Rmult_lt_compat_r with (r := b * p + q) in H; auto. unfold Rdiv in H.
      rewrite Rmult_assoc, Rinv_l in H by lra. lra.
    - apply Rmult_lt_reg_r with (b * p + q); auto. unfold Rdiv. rewrite Rmult_assoc, Rinv_l by lra. lra.
  Qed.
  Lemma share_lt (b q p s : R) : 0 < b * p + q -> base_share b q p < s <-> b * p < s * (b * p + q).
  Proof.
    intros P. unfold base_share. split; intros H.
    - apply Rmult_lt_compat_r with (r := b * p + q) in H; auto. unfold Rdiv in H.
      rewrite Rmult_assoc, Rinv_l in H by lra. lra.
    - apply Rmult_lt_reg_r with (b * p + q); auto. unfold Rdiv. rewrite Rmult_assoc, Rinv_l by lra. lra.
  Qed.
  Lemma share_eq (b q p s : R) : b * p + q <> 0 -> b * p = s * (b * p + q) -> base_share b q p = s.
  Proof. intros P H. unfold base_share. rewrite H at 1. field. exact P. Qed.

  Lemma Rlt_bool_irrefl x : Rlt_bool x x = false.
  Proof. apply Rlt_bool_false. lra. Qed.

  Lemma ideal_fee cfg a t p x : ideal cfg a t p -> @GetFee E a (market_order_fee_config cfg) x = 0.
  Proof.
    intros [H1 H2 H3 H4 H5 H6 H7]. unfold GetFee, Ceil, fmax. cbn [fltb exact fofZ fadd fmul].
    rewrite H1, H2, H3, H5. rewrite Rlt_bool_irrefl.
    replace (0 + x * 0) with 0 by ring. rewrite Rlt_bool_irrefl. reflexivity.
  Qed.

  Lemma ideal_sell cfg a t p (x : R) : ideal cfg a t p -> 0 < p -> 0 < x <= base_balance a ->
    exists a', ExecuteOrder cfg (@market_order E SELL x) t a = Done (true, a') /\
      (base_balance a' : R) = base_balance a - x /\ (quote_balance a' : R) = quote_balance a + x * p.
  Proof.
    intros Id P X. pose proof (fun y => ideal_fee cfg a t p y Id) as F.
    destruct Id as [H1 H2 H3 H4 H5 H6 H7]. unfold ExecuteOrder.
    assert (V : @IsValidOrder E (@market_order E SELL x) = true).
    { cbn. rewrite orb_false_r. apply Rlt_bool_true. lra. }
    rewrite V, assert_true. cbn [bind get_type get_side market_order o_type o_side is_buy is_base_amount o_amount].
    cbn [negb]. rewrite assert_true. cbn [bind]. change (get_base_amount (@market_order E SELL x)) with x.
    unfold MarketSell, SellBase, GetMarketSellPrice.
    assert (PR : (market_liquidity a * open t + (#1 - market_liquidity a) * low t)%F = p).
    { cbn. rewrite H6, H7. change (@flt E) with R in *. ring. }
    rewrite PR. cbn [fleb fltb exact fofZ]. rewrite Rlt_bool_true, assert_true by exact P. cbn [bind].
    rewrite (Rle_bool_true 0 x) by lra. rewrite ?assert_true. cbn [bind].
    unfold Round, Floor. cbn [fltb exact fofZ]. rewrite H4, H5, Rlt_bool_irrefl.
    rewrite (Rlt_bool_false x 0) by lra. cbn [orb].
    rewrite (Rlt_bool_false (base_balance a) x) by (change (@flt E) with R in *; lra).
    rewrite F. cbn [fmul fsub fadd exact].
    rewrite (Rlt_bool_false (x * p - 0) 0) by nra.
    eexists. split; [reflexivity|]. cbn. change (@flt E) with R in *. split; [reflexivity|ring].
  Qed.

  Lemma ideal_buy cfg a t p (x : R) : ideal cfg a t p -> 0 < p -> 0 < x -> x * p <= quote_balance a ->
    exists a', ExecuteOrder cfg (@market_order E BUY x) t a = Done (true, a') /\
      (base_balance a' : R) = base_balance a + x /\ (quote_balance a' : R) = quote_balance a - x * p.
  Proof.
    intros Id P X Q. pose proof (fun y => ideal_fee cfg a t p y Id) as F.
    destruct Id as [H1 H2 H3 H4 H5 H6 H7]. unfold ExecuteOrder.
    assert (V : @IsValidOrder E (@market_order E BUY x) = true).
    { cbn. rewrite orb_false_r. apply Rlt_bool_true. lra. }
    rewrite V, assert_true. cbn [bind get_type get_side market_order o_type o_side is_buy is_base_amount o_amount].
    cbn [bind]. change (get_base_amount (@market_order E BUY x)) with x.
    unfold MarketBuy, BuyBase, GetMarketBuyPrice.
    assert (PR : (market_liquidity a * open t + (#1 - market_liquidity a) * high t)%F = p).
    { cbn. rewrite H6, H7. change (@flt E) with R in *. ring. }
    rewrite PR. cbn [fleb fltb exact fofZ]. rewrite Rlt_bool_true, assert_true by exact P. cbn [bind].
    rewrite (Rle_bool_true 0 x) by lra. rewrite ?assert_true. cbn [bind].
    unfold Round, Ceil. cbn [fltb exact fofZ]. rewrite H4, H5, Rlt_bool_irrefl.
    rewrite (Rlt_bool_false x 0) by lra. rewrite F. cbn [fmul fsub fadd exact].
    rewrite (Rlt_bool_false (quote_balance a) (x * p + 0)) by (change (@flt E) with R in *; lra).
    eexists. split; [reflexivity|]. cbn. change (@flt E) with R in *. split; [reflexivity|ring].
  Qed.

  Lemma exact_orders (c : @rebalancing_config E) (price b q : R) : 0 < b * price + q ->
    rebalancing_orders c price b q =
    let al : R := alpha c in let ep : R := epsilon c in
    let pv := b * price + q in
    if Rlt_bool (al * (1 + ep)) (base_share b q price)
    then [@market_order E SELL (((1 - al) * pv - q) / price)]
    else if Rlt_bool (base_share b q price) (al * (1 - ep))
    then [@market_order E BUY ((q - (1 - al) * pv) / price)]
    else if Rlt_bool (1 / 1000000) b && Rlt_bool (1 / 1000000) q then
      (if Rlt_bool (al * (1 + ep)) 1 then
         let sp := al * (1 + ep) * q / (1 - al * (1 + ep)) in
         if Rlt_bool price sp && Rlt_bool sp (100 * price)
         then [@limit_order E SELL (b * ep / (1 + ep)) sp] else []
       else []) ++
      (let bp := al * (1 - ep) * q / (1 - al * (1 - ep)) in
       if Rlt_bool bp price && Rlt_bool (price / 100) bp
       then [@limit_order E BUY (b * ep / (1 - ep)) bp] else [])
    else [].
  Proof. reflexivity. Qed.
End Exact.
