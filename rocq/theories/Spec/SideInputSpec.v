(** Side input histories: what "the latest known record" means. *)
From Coq Require Import ZArith List.
From Verif.Model Require Import Outcome Machine Types.
Import ListNotations.
Local Open Scope Z_scope.

Section Spec.
  Context {M : machine}.

  (** Timestamps are positive and strictly increasing, every record has the same number of
      signals, and the history is not empty (nor too long for an int index). *)
  Record good_side_history (h : list side_record) : Prop := GoodSideHistory {
    gs_nonempty : h <> [];
    gs_positive : forall r, In r h -> 0 < sr_timestamp_sec r;
    gs_increasing : forall i j r r', nth_error h i = Some r -> nth_error h j = Some r' ->
                    (i < j)%nat -> sr_timestamp_sec r < sr_timestamp_sec r';
    gs_uniform : forall r r', In r h -> In r' h -> length (sr_signal r) = length (sr_signal r');
    gs_int : Z.of_nat (length h) < 2 ^ 31
  }.

  (** i is the index of the last record at or before time t; -1 if there is none. *)
  Definition latest_index (h : list side_record) (t i : Z) : Prop :=
    (i = -1 /\ forall r, In r h -> t < sr_timestamp_sec r) \/
    (0 <= i /\ exists r, nth_error h (Z.to_nat i) = Some r /\ sr_timestamp_sec r <= t /\
       forall j r', nth_error h j = Some r' -> (Z.to_nat i < j)%nat -> t < sr_timestamp_sec r').

  (** r is the last record at or before time t. *)
  Definition latest_record (h : list side_record) (t : Z) (r : option side_record) : Prop :=
    match r with
    | None => forall r, In r h -> t < sr_timestamp_sec r
    | Some r => In r h /\ sr_timestamp_sec r <= t /\
                forall r', In r' h -> sr_timestamp_sec r' <= t ->
                           sr_timestamp_sec r' <= sr_timestamp_sec r
    end.
End Spec.
