(** What the indicators should report, as functions of the periodic ticks. *)
From Coq Require Import Reals ZArith List.
From Verif.Model Require Import Outcome Machine Types Indicators MachineR.
From Verif.Spec Require Import SeriesSpec.
Import ListNotations.

(** * Operations on the sliding-window helpers: add a value, or replace the latest one *)
Inductive window_op (A : Type) : Type := Add (v : A) | Replace (v : A).
Arguments Add {A}. Arguments Replace {A}.

(** The values after the operations (oldest first). *)
Definition op_values {A} (ops : list (window_op A)) : list A :=
  fold_left (fun vs op => match op with
                          | Add v => vs ++ [v]
                          | Replace v => removelast vs ++ [v]
                          end) ops [].

(** A sequence of operations is legal if it does not start by replacing. *)
Definition legal {A} (ops : list (window_op A)) : Prop :=
  match ops with Replace _ :: _ => False | _ => True end.

(** One operation on a helper object with the given two methods. *)
Definition apply_op {A S} (add update : S -> A -> outcome S) (s : S) (op : window_op A) : outcome S :=
  match op with Add v => add s v | Replace v => update s v end.

(** A property of the value of an operation. *)
Definition op_value {A} (P : A -> Prop) (op : window_op A) : Prop :=
  match op with Add v => P v | Replace v => P v end.

Section Machine.
  Context {M : machine}.

  (** m is a smallest / largest element of l. *)
  Definition is_min (m : flt) (l : list flt) : Prop :=
    In m l /\ forall y, In y l -> fleb m y = true.
  Definition is_max (m : flt) (l : list flt) : Prop :=
    In m l /\ forall y, In y l -> fleb y m = true.

  (** Neither NaN. *)
  Definition not_nan (x : flt) : Prop := fleb x x = true.

  (** ** Callbacks of the tick window: what one callback does to a copy of the window that
      holds at most n ticks (oldest first) *)
  Inductive replay1 (n : nat) : list ohlc_tick -> tick_event -> list ohlc_tick -> Prop :=
  | replay_updated w old new : replay1 n (w ++ [old]) (TickUpdated old new) (w ++ [new])
  | replay_added w new : (length w < n)%nat -> replay1 n w (TickAdded new) (w ++ [new])
  | replay_removed removed w new :
      length (removed :: w) = n ->
      replay1 n (removed :: w) (TickAddedRemoved removed new) (w ++ [new]).

  Inductive replay (n : nat) : list ohlc_tick -> list tick_event -> list ohlc_tick -> Prop :=
  | replay_nil w : replay n w [] w
  | replay_cons w e w1 es w2 : replay1 n w e w1 -> replay n w1 es w2 -> replay n w (e :: es) w2.

  Local Open Scope flt_scope.

  (** ** Exponential moving averages *)

  (** e_1 = v_1, e_i = w * v_i + (1 - w) * e_(i-1); 0 without values. *)
  Definition ema_of (w : flt) (vs : list flt) : flt :=
    match vs with
    | [] => #0
    | v :: rest => fold_left (fun e v => w * v + (#1 - w) * e) rest v
    end.

  (** Modified moving average over n periods: the weight of the i-th value (counted from 1)
      is 1/i for i <= n and 1/n afterwards. *)
  Definition mma_of (n : Z) (vs : list flt) : flt :=
    match vs with
    | [] => #0
    | v :: rest =>
      fold_left (fun e iv => let w := #1 / fofZ (Z.min (Z.of_nat (fst iv)) n) in
                             w * snd iv + (#1 - w) * e)
                (combine (seq 2 (length rest)) rest) v
    end.

  (** ** MACD: the difference of two EMAs after every period, and the EMA of the differences *)
  Definition macd_series (wf ws : flt) (closes : list flt) : list flt :=
    map (fun i => ema_of wf (firstn i closes) - ema_of ws (firstn i closes))
        (seq 1 (length closes)).

  (** ** RSI: the price changes from period to period (for the first one from its opening
      price), upward and downward *)
  Definition reference_prices (ser : list ohlc_tick) : list flt :=
    match ser with [] => [] | t :: _ => open t :: map close (removelast ser) end.
  Definition upward (ref price : flt) : flt := if price >=? ref then price - ref else #0.
  Definition downward (ref price : flt) : flt := if price >=? ref then #0 else ref - price.
  Definition upward_changes (ser : list ohlc_tick) : list flt :=
    map (fun x => upward (fst x) (snd x)) (combine (reference_prices ser) (map close ser)).
  Definition downward_changes (ser : list ohlc_tick) : list flt :=
    map (fun x => downward (fst x) (snd x)) (combine (reference_prices ser) (map close ser)).

  (** The index of the two averages; "negligible" is below 10^-6. *)
  Definition rsi_of (up down : flt) : flt :=
    if andb (up <? flit 1 1000000) (down <? flit 1 1000000) then #50
    else if down <? up * flit 1 1000000 then #100
    else #100 - #100 / (#1 + up / down).

  (** ** Stochastic oscillator: position of the price between low and high *)
  Definition k_of (lowest highest price : flt) : flt :=
    if (highest - lowest) <? flit 1 1000000 then #50
    else #100 * (price - lowest) / (highest - lowest).

  (** ** Volatility: an update is a tick together with the balances held at that time *)
  Record balance_update : Type := BalanceUpdate {
    bu_tick : ohlc_tick;
    bu_base : flt;
    bu_quote : flt
  }.

  (** The value of the balances at a price. *)
  Definition worth (x : balance_update) (price : flt) : flt := bu_base x * price + bu_quote x.

  (** The portfolio value at the end of the period starting at b: the balances of the last
      update of the period at its closing price.  A period without updates is valued at the
      last earlier closing price with the balances of the next later update. *)
  Definition value_at (p : Z) (xs : list balance_update) (b : Z) : flt :=
    match rev (filter (fun x => Z.eqb (bucket_of p (bu_tick x)) b) xs) with
    | x :: _ => worth x (close (bu_tick x))
    | [] =>
      match rev (filter (fun x => Z.ltb (bucket_of p (bu_tick x)) b) xs),
            filter (fun x => Z.ltb b (bucket_of p (bu_tick x))) xs with
      | earlier :: _, later :: _ => worth later (close (bu_tick earlier))
      | _, _ => #0
      end
    end.

  (** The portfolio values of all periods, and the initial one (at the opening price). *)
  Definition period_values (p : Z) (xs : list balance_update) : list flt :=
    map (value_at p xs) (grid p (map bu_tick xs)).
  Definition initial_value (xs : list balance_update) : flt :=
    match xs with x :: _ => worth x (open (bu_tick x)) | [] => #0 end.

  (** The pairs (previous value, value) of all periods. *)
  Definition value_steps (p : Z) (xs : list balance_update) : list (flt * flt) :=
    combine (initial_value xs :: period_values p xs) (period_values p xs).
End Machine.

(** * Exact arithmetic *)
Local Open Scope R_scope.

Definition Rsum (l : list R) : R := fold_right Rplus 0 l.

(** Arithmetic mean (0 of nothing). *)
Definition mean (l : list R) : R :=
  match l with [] => 0 | _ => Rsum l / INR (length l) end.

(** Population variance: the mean squared deviation from the mean. *)
Definition variance (l : list R) : R := mean (map (fun x => (x - mean l) ^ 2) l).

(** The last n values; all of them if n = 0. *)
Definition last_or_all {A} (n : Z) (l : list A) : list A :=
  if Z.eqb n 0 then l else lastn (Z.to_nat n) l.

Definition min_of (l : list R) : R :=
  match l with [] => 0 | x :: l => fold_left Rmin l x end.
Definition max_of (l : list R) : R :=
  match l with [] => 0 | x :: l => fold_left Rmax l x end.

(** All non-empty prefixes of a list, shortest first. *)
Definition prefixes {A} (l : list A) : list (list A) :=
  map (fun i => firstn i l) (seq 1 (length l)).

(** ** Stochastic oscillator over exact numbers *)
Section Exact.
  Context (sh : R -> String.string) (as_ : bool).
  Notation E := (exact sh as_).

  (** %K after the ticks ser with n periods, and the fast and slow %D. *)
  Definition percent_k (n : Z) (ser : list (@ohlc_tick E)) : R :=
    let lowest := min_of (map low (lastn (Z.to_nat n) ser)) in
    let highest := max_of (map high (lastn (Z.to_nat n) ser)) in
    match rev ser with
    | [] => 0
    | t :: _ => @k_of E lowest highest (close t)
    end.
  Definition fast_d (n : Z) (ser : list (@ohlc_tick E)) : R :=
    mean (lastn 3 (map (percent_k n) (prefixes ser))).
  Definition slow_d (n : Z) (ser : list (@ohlc_tick E)) : R :=
    mean (lastn 3 (map (fast_d n) (prefixes ser))).
End Exact.
