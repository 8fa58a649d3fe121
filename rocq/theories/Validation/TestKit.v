(** Running the repository's own unit tests on the model (see DESIGN.md, "Validation").

    The files *Test.v of this directory are generated from /repo's *_test.cc: every statement
    of a TEST becomes the corresponding call of the model on the IEEE machine, every EXPECT_*
    or ASSERT_* becomes a boolean with the line of the C++ file.  A test evaluates to
    [Done []] iff it passes, otherwise to the list of the failing lines (or to the abort).
    These are tests, not proofs: they only check that the model is a model of this code.

    This file: literals, gtest's EXPECT_FLOAT_EQ, a computable math library, and the traders
    defined inside eval/eval_test.cc. *)

From Coq Require Import ZArith Bool List String Ascii.
From Flocq Require Import Core BinarySingleNaN.
From Verif.Model Require Import Outcome Machine Types Account History SideInput Indicators
  TimeUtil TimeText Eval Traders CsvLogger MachineIEEE Proto Files.
Import ListNotations.
Local Open Scope Z_scope.

(** * The math library: fixed point with 2^-160, then one rounding to nearest. *)

Definition P : Z := 160.
Definition one : Z := 2 ^ P.
Definition fmul_ (a b : Z) : Z := (a * b) / one.

(** 2 * atanh z = 2 (z + z^3/3 + ...), |z| <= 1/3. *)
Fixpoint atanh_loop (n : nat) (k z2 pow acc : Z) : Z :=
  match n with
  | O => acc
  | S n' => atanh_loop n' (k + 2) z2 (fmul_ pow z2) (acc + pow / k)
  end.
Definition atanh2 (z : Z) : Z := 2 * atanh_loop 60 1 (fmul_ z z) z 0.
Definition ln2 : Z := atanh2 (one / 3).

(** ln (m * 2^e), m > 0: m is brought to [1, 2). *)
Definition ln_fix (m e : Z) : Z :=
  let l := Z.log2 m in
  let y := m * 2 ^ (P - l) in
  atanh2 (((y - one) * one) / (y + one)) + (e + l) * ln2.

Fixpoint exp_loop (n : nat) (k r term acc : Z) : Z :=
  match n with
  | O => acc
  | S n' => exp_loop n' (k + 1) r (fmul_ term r / k) (acc + term)
  end.
(** exp t as (mantissa, exponent). *)
Definition exp_fix (t : Z) : Z * Z :=
  let k := t / ln2 in
  (exp_loop 60 1 (t - k * ln2) one 0, k - P).

Definition test_logf (x : f32) : f32 :=
  match x with
  | B754_zero _ => B754_infinity true
  | B754_infinity false => B754_infinity false
  | B754_finite false m e _ =>
    binary_normalize 24 128 _ _ mode_NE (ln_fix (Zpos m) e) (- P) false
  | _ => B754_nan
  end.
Definition test_expf (x : f32) : f32 :=
  match x with
  | B754_zero _ => f32_of_Z 1
  | B754_finite s m e _ =>
    let t := cond_Zopp s (Zpos m) in
    let (r, k) := exp_fix (if 0 <=? e + P then t * 2 ^ (e + P) else t / 2 ^ (- (e + P))) in
    binary_normalize 24 128 _ _ mode_NE r k false
  | B754_infinity true => f32_of_Z 0
  | _ => x
  end.
(** Only for finite x > 0. *)
Definition test_pow (x y : f64) : f64 :=
  match x, y with
  | B754_finite false m e _, B754_finite s m' e' _ =>
    let q := cond_Zopp s (Zpos m') * ln_fix (Zpos m) e in
    let t := if 0 <=? e' then q * 2 ^ e' else q / 2 ^ (- e') in
    let (r, k) := exp_fix t in
    binary_normalize 53 1024 _ _ mode_NE r k false
  | _, _ => B754_nan
  end.

Definition test_libm : libm := Libm test_expf test_logf test_pow.
#[global] Instance test_machine : machine := ieee test_libm true.

(** * Literals and checks *)

(** The float m * 2^e. *)
Definition fl (m e : Z) : f32 := binary_normalize 24 128 _ _ mode_NE m e false.

(** gtest FloatingPoint::SignAndMagnitudeToBiased: floats as integers in order. *)
Definition biased (x : f32) : option Z :=
  match x with
  | B754_zero _ => Some 0
  | B754_infinity s => Some (cond_Zopp s (255 * 2 ^ 23))
  | B754_nan => None
  | B754_finite s m e _ =>
    Some (cond_Zopp s (if Zpos m <? 2 ^ 23 then Zpos m else (e + 149) * 2 ^ 23 + Zpos m))
  end.
(** EXPECT_FLOAT_EQ: within 4 units in the last place. *)
Definition feq (a b : f32) : bool :=
  match biased a, biased b with
  | Some x, Some y => Z.abs (x - y) <=? 4
  | _, _ => false
  end.
(** Equality of protobuf float fields. *)
Definition fsame (a b : f32) : bool := Beqb a b.
Definition ofsame (a b : option f32) : bool :=
  match a, b with
  | Some x, Some y => fsame x y
  | None, None => true
  | _, _ => false
  end.

Definition failures (checks : list (Z * bool)) : list Z :=
  map fst (filter (fun c => negb (snd c)) checks).

Definition idx {A} (d : A) (l : list A) (i : Z) : A := nth (Z.to_nat i) l d.
Definition size {A} (l : list A) : Z := Z.of_nat (List.length l).

Definition tick0 : ohlc_tick := OhlcTick 0 (fl 0 0) (fl 0 0) (fl 0 0) (fl 0 0) (fl 0 0).
Definition price0 : price_record := PriceRecord 0 (fl 0 0) (fl 0 0).

(** std::map::at. *)
Fixpoint map_at (m : list (Z * bool)) (k : Z) : option bool :=
  match m with
  | [] => None
  | (k', v) :: m' => if k =? k' then Some v else map_at m' k
  end.
Definition is_bool (x : option bool) (b : bool) : bool :=
  match x with Some v => Bool.eqb v b | None => false end.

(** * Accounts as the tests build them (base/account.h:11-41: a default-constructed Account
    and assignments to its fields). *)
Definition account0 : account :=
  Account (fl 0 0) (fl 0 0) (fl 0 0) (fl 0 0) (fl 0 0) (fl 1 0) (fl 0 0).
Definition set_base_balance (a : account) (x : f32) : account :=
  Account x (quote_balance a) (total_fee a) (base_unit a) (quote_unit a) (market_liquidity a) (max_volume_ratio a).
Definition set_quote_balance (a : account) (x : f32) : account :=
  Account (base_balance a) x (total_fee a) (base_unit a) (quote_unit a) (market_liquidity a) (max_volume_ratio a).
Definition set_total_fee (a : account) (x : f32) : account :=
  Account (base_balance a) (quote_balance a) x (base_unit a) (quote_unit a) (market_liquidity a) (max_volume_ratio a).
Definition set_base_unit (a : account) (x : f32) : account :=
  Account (base_balance a) (quote_balance a) (total_fee a) x (quote_unit a) (market_liquidity a) (max_volume_ratio a).
Definition set_quote_unit (a : account) (x : f32) : account :=
  Account (base_balance a) (quote_balance a) (total_fee a) (base_unit a) x (market_liquidity a) (max_volume_ratio a).
Definition set_market_liquidity (a : account) (x : f32) : account :=
  Account (base_balance a) (quote_balance a) (total_fee a) (base_unit a) (quote_unit a) x (max_volume_ratio a).
Definition set_max_volume_ratio (a : account) (x : f32) : account :=
  Account (base_balance a) (quote_balance a) (total_fee a) (base_unit a) (quote_unit a) (market_liquidity a) x.

(** * The calls LastNOhlcTicks made, by callback (indicators/last_n_ohlc_ticks_test.cc). *)
Definition updated_old (l : list tick_event) : list ohlc_tick :=
  flat_map (fun e => match e with TickUpdated o _ => [o] | _ => [] end) l.
Definition updated_new (l : list tick_event) : list ohlc_tick :=
  flat_map (fun e => match e with TickUpdated _ n => [n] | _ => [] end) l.
Definition added_new (l : list tick_event) : list ohlc_tick :=
  flat_map (fun e => match e with TickAdded n => [n] | _ => [] end) l.
Definition shifted_removed (l : list tick_event) : list ohlc_tick :=
  flat_map (fun e => match e with TickAddedRemoved r _ => [r] | _ => [] end) l.
Definition shifted_new (l : list tick_event) : list ohlc_tick :=
  flat_map (fun e => match e with TickAddedRemoved _ n => [n] | _ => [] end) l.

(** * The traders of eval/eval_test.cc *)

(** "%.0f" of a non-negative finite float. *)
Definition fmt0 (x : f32) : string :=
  match x with
  | B754_finite s m e _ =>
    fmt_d (cond_Zopp s (if 0 <=? e then Zpos m * 2 ^ e else div_half_even (Zpos m) (2 ^ (- e))))
  | _ => "0"
  end.
(** static_cast<int>(float) for finite values in range. *)
Definition f32_to_int (x : f32) : Z :=
  match x with
  | B754_finite s m e _ => cond_Zopp s (if 0 <=? e then Zpos m * 2 ^ e else Zpos m / 2 ^ (- e))
  | _ => 0
  end.

(** eval_test.cc:97-153 TestTrader. *)
Record test_trader : Type := TestTraderState {
  tt_base : f32; tt_quote : f32; tt_time : Z; tt_close : f32; tt_long : bool
}.
Definition test_emitter (buy_price sell_price : f32) : trader_emitter := {|
  te_name := ("test-trader[" ++ fmt0 buy_price ++ "|" ++ fmt0 sell_price ++ "]")%string;
  te_state := test_trader;
  te_new := TestTraderState (fl 0 0) (fl 0 0) 0 (fl 0 0) false;
  te_update := fun _ t _ base quote =>
    let is_long := fltb quote (fmul (close t) base) in
    Done (TestTraderState base quote (timestamp_sec t) (close t) is_long,
          [if is_long then Order (Some LIMIT) (Some SELL) (BaseAmount base) (Some sell_price)
           else Order (Some LIMIT) (Some BUY) (QuoteAmount quote) (Some buy_price)]);
  te_show := fun s =>
    (fmt_d (tt_time s) ++ "," ++ f32_fmt3 (tt_base s) ++ "," ++ f32_fmt3 (tt_quote s) ++ ","
     ++ f32_fmt3 (tt_close s) ++ ","
     ++ if tt_long s then "IN_LONG,LIMIT_SELL@" ++ fmt0 sell_price
        else "IN_CASH,LIMIT_BUY@" ++ fmt0 buy_price)%string
|}.

(** eval_test.cc:1018-1100 TestTraderWithSideInput. *)
Record side_trader : Type := SideTraderState {
  sd_base : f32; sd_quote : f32; sd_time : Z; sd_close : f32; sd_rec : Z; sd_age : Z
}.
Definition side_emitter : trader_emitter := {|
  te_name := "test-trader-with-side-input";
  te_state := side_trader;
  te_new := SideTraderState (fl 0 0) (fl 0 0) 0 (fl 0 0) (-1) (-1);
  te_update := fun s t signals base quote =>
    match signals with
    | [] => Done (SideTraderState base quote (timestamp_sec t) (close t) (sd_rec s) (sd_age s), [])
    | _ =>
      assert_ (size signals =? 2) ;;
      let rec := f32_to_int (idx (fl 0 0) signals 0) in
      let age := f32_to_int (idx (fl 0 0) signals 1) in
      assert_ ((rec >=? 0) && (rec <=? 2)) ;;
      assert_ (age >=? 0) ;;
      Done (SideTraderState base quote (timestamp_sec t) (close t) rec age,
            if (rec =? 1) && (age <=? 3600) && fltb (fl 0 0) quote then
              [Order (Some MARKET) (Some BUY) (QuoteAmount quote) None]
            else if (rec =? 2) && (age <=? 3600) && fltb (fl 0 0) base then
              [Order (Some MARKET) (Some SELL) (BaseAmount base) None]
            else [])
    end;
  te_show := fun s =>
    (fmt_d (sd_time s) ++ "," ++ f32_fmt3 (sd_base s) ++ "," ++ f32_fmt3 (sd_quote s) ++ ","
     ++ f32_fmt3 (sd_close s) ++ ","
     ++ (if (sd_rec s =? -1)%Z then "UNKNOWN"
         else if (sd_age s >? 3600)%Z then "TOO_OLD"
         else if (sd_rec s =? 0)%Z then "DO_NOTHING"
         else if (sd_rec s =? 1)%Z then "SHOULD_BUY" else "SHOULD_SELL")
     ++ "," ++ fmt_d (sd_age s))%string
|}.
