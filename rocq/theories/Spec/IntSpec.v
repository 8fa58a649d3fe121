(** What "the integers stay in range" means for the inputs of the functions of Model/Ints.v:
    all of it is about timestamps, sizes and numbers of orders. *)
From Coq Require Import ZArith List.
From Verif.Model Require Import Outcome Machine Types SideInput Eval.
Import ListNotations.
Open Scope Z_scope.

(** Timestamps whose differences and small multiples stay within int64_t: about 36 billion years on
    either side of 1970. *)
Definition far : Z := 2 ^ 60.

(** Times from lo to hi, both within [far]. *)
Definition times_within (lo hi : Z) (l : list Z) : Prop :=
  - far <= lo /\ hi <= far /\ Forall (fun t => lo <= t <= hi) l.

(** The span lo..hi has fewer than 2^31 periods of the given length. *)
Definition few_periods (period lo hi : Z) : Prop :=
  0 < period < 2 ^ 31 /\ hi - lo <= period * (2 ^ 31 - 4).

Section IntSpec.
  Context {M : machine}.

  (** A side input whose sizes fit into ints. *)
  Definition side_input_fits (si : side_input) : Prop :=
    0 <= GetNumberOfSignals si /\ GetNumberOfRecords si <= 2 ^ 31 - 4 /\
    GetNumberOfRecords si * GetNumberOfSignals si < 2 ^ 31 /\
    Forall (fun t => - far <= t <= far) (timestamp_sec_history si).

  (** A trader that never emits more than m orders at a time. *)
  Definition emits_at_most (m : Z) (te : trader_emitter) : Prop :=
    forall s t sig b q s' orders,
      te_update te s t sig b q = Done (s', orders) -> Z.of_nat (length orders) <= m.
End IntSpec.
