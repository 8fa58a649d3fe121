(** What perfect foresight would gain along a path of prices. *)
From Coq Require Import Reals List.
From Verif.Model Require Import Outcome Machine Types MachineR.
Local Open Scope R_scope.

(** Someone who holds only the base currency while the price rises, and only the quote
    currency while it falls, multiplies his wealth by this factor on the way from p to q. *)
Definition rise (p q : R) : R := Rmax 1 (q / p).

(** ... and by this factor along the path p, q1, q2, ... *)
Fixpoint rises (p : R) (qs : list R) : R :=
  match qs with
  | nil => 1
  | cons q qs => rise p q * rises q qs
  end.

(** The price range of the candle. *)
Definition in_candle {sh : R -> String.string} {as_ : bool} (t : @ohlc_tick (exact sh as_)) (q : R) : Prop :=
  (low t : R) <= q <= high t.

(** The whole candle is inside [lo, hi]. *)
Definition inside {sh : R -> String.string} {as_ : bool} (lo hi : R) (t : @ohlc_tick (exact sh as_)) : Prop :=
  lo <= (low t : R) /\ (high t : R) <= hi.

(** A candle in which the price does not move. *)
Definition still {sh : R -> String.string} {as_ : bool} (t : @ohlc_tick (exact sh as_)) : Prop :=
  (open t : R) = close t /\ (high t : R) = close t /\ (low t : R) = close t.
