(** The exact averages the float ones are compared with, over the reals. *)
From Coq Require Import Reals List.
Import ListNotations.
Local Open Scope R_scope.

(** e_1 = v_1, e_i = w * v_i + (1 - w) * e_(i-1); 0 without values. *)
Definition Rema (w : R) (vs : list R) : R :=
  match vs with
  | [] => 0
  | v :: rest => fold_left (fun e v => w * v + (1 - w) * e) rest v
  end.

(** The exact MACD series: the difference of the two averages after every period. *)
Definition Rmacd (wf ws : R) (vs : list R) : list R :=
  map (fun i => Rema wf (firstn i vs) - Rema ws (firstn i vs)) (seq 1 (length vs)).
