(** Averages of prices: what is compared in C124. *)
From Coq Require Import Reals ZArith List.
From Verif.Model Require Import Outcome Machine Types Indicators MachineR.
From Verif.Spec Require Import IndicatorSpec.
Import ListNotations.
Local Open Scope R_scope.

(** x lies between lo and hi. *)
Definition between (lo hi x : R) : Prop := lo <= x <= hi.

(** The same operations with every value changed by f. *)
Definition op_map (f : R -> R) (op : window_op R) : window_op R :=
  match op with Add v => Add (f v) | Replace v => Replace (f v) end.

Section Exact.
  Context (sh : R -> String.string) (as_ : bool).
  Notation E := (exact sh as_).

  (** Every update closes between lo and hi. *)
  Definition closes_between (lo hi : R) (us : list (@ohlc_tick E)) : Prop :=
    forall u, In u us -> between lo hi (close u).

  (** Two series of updates at the same times, with related closing prices (whatever the other
      fields). *)
  Definition closes_related (rel : R -> R -> Prop) (us us' : list (@ohlc_tick E)) : Prop :=
    Forall2 (fun u u' : @ohlc_tick E => timestamp_sec u = timestamp_sec u' /\ rel (close u) (close u')) us us'.

  (** What a new indicator reports after the updates. *)
  Definition sma_reports (num_periods p : Z) us (x : R) : Prop :=
    exists s0 s, @NewSma E num_periods p = Done s0 /\ foldM (@sma_Update E num_periods p) s0 us = Done s /\
      x = @sma_Get E s.
  Definition ema_reports (smoothing : R) (ema_length p : Z) us (x : R) : Prop :=
    exists s0 s, @NewEma E p = Done s0 /\
      foldM (@ema_Update E (@ema_weight E smoothing ema_length) p) s0 us = Done s /\ x = @ema_Get E s.
  Definition macd_reports (fast_length slow_length signal_smoothing p : Z) us
             (fast slow macd signal divergence : R) : Prop :=
    exists s0 s, @NewMacd E p = Done s0 /\
      foldM (@macd_Update E fast_length slow_length signal_smoothing p) s0 us = Done s /\
      fast = @macd_GetFast E s /\ slow = @macd_GetSlow E s /\ macd = @macd_GetSeries E s /\
      signal = @macd_GetSignal E s /\ divergence = @macd_GetDivergence E s.

  (** The second series has the closes a * x + b where the first has x. *)
  Definition rescaled (a b : R) (us us' : list (@ohlc_tick E)) : Prop :=
    closes_related (fun x y => y = a * x + b) us us'.

  (** The mean and the standard deviation that a new helper reports after the operations. *)
  Definition deviation_reports (n : Z) (ops : list (window_op R)) (m sd : R) : Prop :=
    exists s, foldM (apply_op (fun s v => Done (@mv_AddNewValue E s v)) (@mv_UpdateCurrentValue E)) (@NewMeanVar E n) ops = Done s /\
      m = @mv_GetMean E s /\ sd = @mv_GetStandardDeviation E s.
End Exact.
