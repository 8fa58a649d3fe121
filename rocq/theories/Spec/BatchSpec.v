(** What it means to schedule the threads of a batch. *)
From Coq Require Import List.
From Verif.Model Require Import Machine Batch.
Import ListNotations.

(** An endless schedule: the decision at each moment.  It is fair to the main thread and the
    first n tasks if each of them gets a turn again and again. *)
Definition fair (n : nat) (f : nat -> decision) : Prop :=
  (forall i, exists j deferred, i <= j /\ f j = MainTurn deferred) /\
  (forall k i, k < n -> exists j, i <= j /\ f j = TaskTurn k).

(** The first k decisions of a schedule. *)
Definition first_decisions (f : nat -> decision) (k : nat) : list decision := map f (seq 0 k).
