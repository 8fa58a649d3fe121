(** std::lower_bound / std::upper_bound (libstdc++ bits/stl_algobase.h
    __lower_bound, bits/stl_algo.h __upper_bound) as used by base/base.h:58-67 and
    base/side_input.cc:40-42, 59-62.  Both are the same halving loop

      while (len > 0) { half = len >> 1; middle = first + half;
        if (GO_RIGHT(middle)) { first = middle + 1; len = len - half - 1; }
        else len = half; }
      return first;

    over positions [first, first+len).  Nothing is assumed about sortedness: the
    result of the loop on an unsorted range is whatever the loop computes. *)

From Coq Require Import Arith.

Fixpoint search_loop (fuel : nat) (go_right : nat -> bool) (first len : nat) : nat :=
  match fuel with
  | O => first
  | S fuel' =>
    match len with
    | O => first
    | S _ =>
      let half := Nat.div2 len in
      let middle := first + half in
      if go_right middle
      then search_loop fuel' go_right (S middle) (len - half - 1)
      else search_loop fuel' go_right first half
    end
  end.

(** [len] strictly decreases, so [len] iterations always suffice (proved in
    Proofs/SearchProofs.v). *)
Definition search (go_right : nat -> bool) (first len : nat) : nat :=
  search_loop len go_right first len.
