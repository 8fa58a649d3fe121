(** What is left on disk when a program is stopped or runs out of space while it writes. *)
From Coq Require Import ZArith String List.
From Verif.Model Require Import Proto Programs.
Import ListNotations.

(** The files of a program that was to write [files] one after the other and was stopped: some
    files are complete, at most the last one is cut off. *)
Inductive interrupted (files : list (string * bytes)) : list (string * bytes) -> Prop :=
| between done rest : files = done ++ rest -> interrupted files done
| within done name b k rest : files = done ++ (name, b) :: rest ->
    interrupted files (done ++ [(name, firstn k b)]).

(** Each file is complete or lacks at most its last n bytes. *)
Definition nearly_complete (n : nat) (files files' : list (string * bytes)) : Prop :=
  Forall2 (fun w w' => fst w' = fst w /\ exists k, snd w' = firstn k (snd w) /\ (length (snd w) <= k + n)%nat) files files'.
