(** base/side_input.cc, base/side_input.h. *)

From Coq Require Import ZArith Bool List.
From Verif.Model Require Import Outcome Machine Types Search.
Import ListNotations.

Section SideInput.
  Context {M : machine}.

  (** side_input.h:41-46: the fields of SideInput. *)
  Record side_input : Type := SideInput {
    num_signals : Z;
    timestamp_sec_history : list Z;
    data : list flt
  }.

  (** side_input.cc:12-20: the constructor's loop. *)
  Definition side_input_step (n : Z) (s : side_input * Z) (r : side_record)
    : outcome (side_input * Z) :=
    let (si, prev_timestamp_sec) := s in
    assert_ (Z.of_nat (length (sr_signal r)) =? n)%Z ;;
    assert_ (sr_timestamp_sec r >? prev_timestamp_sec)%Z ;;
    Done ({| num_signals := num_signals si;
             timestamp_sec_history := timestamp_sec_history si ++ [sr_timestamp_sec r];
             data := data si ++ sr_signal r |}, sr_timestamp_sec r).

  (** side_input.cc:7-21 SideInput::SideInput.  front() of an empty vector is
      undefined behaviour. *)
  Definition NewSideInput (side_history : list side_record) : outcome side_input :=
    match side_history with
    | [] => Undefined
    | r :: _ =>
      let n := Z.of_nat (length (sr_signal r)) in
      omap fst (foldM (side_input_step n) (SideInput n [] [], 0%Z) side_history)
    end.

  (** side_input.h:18 *)
  Definition GetNumberOfSignals (s : side_input) : Z := num_signals s.
  (** side_input.h:20 *)
  Definition GetNumberOfRecords (s : side_input) : Z :=
    Z.of_nat (length (timestamp_sec_history s)).

  (** std::vector::at with an int argument (a negative int becomes a huge size_t). *)
  Definition at_ {A} (l : list A) (i : Z) : outcome A :=
    if (i <? 0)%Z then Thrown
    else match nth_error l (Z.to_nat i) with Some x => Done x | None => Thrown end.

  (** side_input.h:22-24 *)
  Definition GetSideInputTimestamp (s : side_input) (i : Z) : outcome Z :=
    at_ (timestamp_sec_history s) i.

  (** side_input.cc:23-28 *)
  Definition GetSideInputSignal (s : side_input) (side_input_index signal_index : Z)
    : outcome flt :=
    assert_ ((side_input_index >=? 0) && (side_input_index <? GetNumberOfRecords s))%Z ;;
    assert_ ((signal_index >=? 0) && (signal_index <? GetNumberOfSignals s))%Z ;;
    at_ (data s) (side_input_index * num_signals s + signal_index)%Z.

  (** side_input.cc:34-36: the loop pushing n signals from [offset] on. *)
  Fixpoint signals_loop (s : side_input) (n : nat) (pos : Z) (acc : list flt) : outcome (list flt) :=
    match n with
    | O => Done acc
    | S n' => do x <- at_ (data s) pos ; signals_loop s n' (pos + 1)%Z (acc ++ [x])
    end.

  (** side_input.cc:30-37; [side_input_signals] is the vector appended to. *)
  Definition GetSideInputSignals (s : side_input) (side_input_index : Z)
             (side_input_signals : list flt) : outcome (list flt) :=
    assert_ ((side_input_index >=? 0) && (side_input_index <? GetNumberOfRecords s))%Z ;;
    let offset := (side_input_index * num_signals s)%Z in
    signals_loop s (Z.to_nat (num_signals s)) offset side_input_signals.

  (** std::upper_bound on timestamp_sec_history_ from position [first]. *)
  Definition upper_bound_from (l : list Z) (first : nat) (t : Z) : nat :=
    search (fun i => match nth_error l i with
                     | Some x => negb (t <? x)%Z
                     | None => false
                     end) first (length l - first).

  (** side_input.cc:39-43 *)
  Definition GetSideInputIndex (s : side_input) (t : Z) : Z :=
    (Z.of_nat (upper_bound_from (timestamp_sec_history s) 0 t) - 1)%Z.

  (** side_input.cc:45-63.  The size_t expressions size() - 1 and size() - 2 wrap
      modulo 2^64.  The argument of the assert is evaluated (and may throw) only
      when asserts are enabled.  An iterator begin() + prev + 2 past end() would be
      undefined. *)
  Definition GetSideInputIndexHint (s : side_input) (t prev : Z) : outcome Z :=
    let l := timestamp_sec_history s in
    let size := Z.of_nat (length l) in
    if (prev <? 0)%Z then Done (GetSideInputIndex s t) else
    (if asserts_on then do x <- at_ l prev ; assert_ (t >=? x)%Z else Done tt) ;;
    do c1 <- (if (prev =? (size - 1) mod 2 ^ 64)%Z then Done true
              else do x <- at_ l (prev + 1) ; Done (t <? x)%Z) ;
    if (c1 : bool) then Done prev else
    do c2 <- (if (prev =? (size - 2) mod 2 ^ 64)%Z then Done true
              else do x <- at_ l (prev + 2) ; Done (t <? x)%Z) ;
    if (c2 : bool) then Done (prev + 1)%Z else
    if (size <? prev + 2)%Z then Undefined else
    Done (Z.of_nat (upper_bound_from l (Z.to_nat (prev + 2)) t) - 1)%Z.
End SideInput.
