(** Outcomes of a run of a piece of the C++ program.

    The C++ code can finish normally, stop in a failed [assert] (std::abort),
    run into undefined behaviour, leave by an exception (std::vector::at), or
    run forever.  All of these are distinct outcomes of the model, so that a
    theorem "= Done v" excludes all the others. *)

Set Implicit Arguments.

Inductive outcome (A : Type) : Type :=
| Done (a : A)       (* normal termination with a value *)
| AssertFail         (* a failed assert(...): std::abort *)
| Undefined          (* undefined behaviour of C++ *)
| Thrown             (* an exception (std::out_of_range from .at()) *)
| Diverged.          (* fuel exhausted: no termination within the given number of iterations *)

Arguments Done {A} a.
Arguments AssertFail {A}.
Arguments Undefined {A}.
Arguments Thrown {A}.
Arguments Diverged {A}.

Definition bind {A B} (x : outcome A) (f : A -> outcome B) : outcome B :=
  match x with
  | Done a => f a
  | AssertFail => AssertFail
  | Undefined => Undefined
  | Thrown => Thrown
  | Diverged => Diverged
  end.

Notation "'do' x <- e ; f" := (bind e (fun x => f))
  (at level 200, x name, e at level 100, f at level 200, right associativity).
Notation "'do' ' p <- e ; f" := (bind e (fun p => f))
  (at level 200, p pattern, e at level 100, f at level 200, right associativity).
Notation "e ;; f" := (bind e (fun _ => f)) (at level 100, right associativity, f at level 200).

Definition omap {A B} (f : A -> B) (x : outcome A) : outcome B :=
  bind x (fun a => Done (f a)).

(** A C++ range-based [for] loop whose body may fail: left-to-right, stopping at
    the first non-normal outcome. *)
Fixpoint foldM {A S} (f : S -> A -> outcome S) (s : S) (l : list A) : outcome S :=
  match l with
  | nil => Done s
  | cons a l' => bind (f s a) (fun s' => foldM f s' l')
  end.
