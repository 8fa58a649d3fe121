(** The exact averages and the exact index the float RSI is compared with, over the reals. *)
From Coq Require Import Reals ZArith List.
From Flocq Require Import BinarySingleNaN.
From Verif.Model Require Import Machine Types MachineIEEE.
From Verif.Spec Require Import IndicatorSpec.
Import ListNotations.
Local Open Scope R_scope.

(** e_1 = v_1, e_i = v_i / m + (1 - 1/m) * e_(i-1) with m = min(i, n); 0 without values. *)
Definition Rmma (n : Z) (vs : list R) : R :=
  match vs with
  | [] => 0
  | v :: rest =>
    fold_left (fun e iv => let m := IZR (Z.min (Z.of_nat (fst iv)) n) in snd iv / m + (1 - 1 / m) * e)
              (combine (seq 2 (length rest)) rest) v
  end.

(** The exact change of the price in every period: its closing price minus the previous one
    (for the first period minus its opening price). *)
Definition price_changes {lm as_} (ser : list (@ohlc_tick (ieee lm as_))) : list R :=
  map (fun x : f32 * f32 => B2R (snd x) - B2R (fst x)) (combine (reference_prices ser) (map (@close (ieee lm as_)) ser)).

Definition average_rise (n : Z) (changes : list R) : R := Rmma n (map (fun c => Rmax 0 c) changes).
Definition average_fall (n : Z) (changes : list R) : R := Rmma n (map (fun c => Rmax 0 (- c)) changes).
