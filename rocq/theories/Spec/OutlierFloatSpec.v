(** Histories on which rounding cannot change which records are outliers. *)
From Coq Require Import Reals ZArith Bool List.
From Flocq Require Import Core BinarySingleNaN.
From Verif.Model Require Import Machine Types MachineR MachineIEEE.
From Verif.Spec Require Import HistorySpec.
Local Open Scope R_scope.

(** x is not within two parts per million (2^-19 of its size) of the positive threshold t. *)
Definition clear_of (t x : R) : Prop := / 2 ^ 19 * t < Rabs (x - t).

Section Real.
  Context (lm : libm) (as_ : bool) (sh : R -> String.string) (as' : bool).
  Local Notation I := (ieee lm as_).
  Local Notation E := (exact sh as').

  (** The same record, its numbers as reals. *)
  Definition real_record (r : @price_record I) : @price_record E :=
    @PriceRecord E (pr_timestamp_sec r) (B2R (pr_price r : f32)) (B2R (pr_volume r : f32)).

  (** Finite numbers, a price that, if positive, is between 2^-40 and 2^40, a sane time. *)
  Definition sane_record (r : @price_record I) : Prop :=
    is_finite (pr_price r : f32) = true /\ is_finite (pr_volume r : f32) = true /\
    (0 < B2R (pr_price r : f32) -> / 2 ^ 40 <= B2R (pr_price r : f32) <= 2 ^ 40) /\
    (0 <= pr_timestamp_sec r < 2 ^ 40)%Z.

  (** By the exact rule: the price of r after prev is clear of both edges, and, if it jumps,
      the prices of the next ten well-formed records are clear of the confirmation
      threshold on that side. *)
  Definition clear_decision (dev : R) (prev r : @price_record E) (later : list (@price_record E)) : Prop :=
    clear_of (@upper_edge E dev prev r) (pr_price r) /\ clear_of (@lower_edge E dev prev r) (pr_price r) /\
    forall x, In x (firstn 10 (filter (fun x => negb (@bad_record E x)) later)) ->
      (@jumps_up E dev prev r = true -> clear_of (@toward E (@upper_edge E dev prev r) prev) (pr_price x)) /\
      (@jumps_down E dev prev r = true -> clear_of (@toward E (@lower_edge E dev prev r) prev) (pr_price x)).

  (** Every decision of the exact rule on l, whose mask is the given one, is clear. *)
  Definition clear_history (dev : R) (l : list (@price_record E)) (mask : list bool) : Prop :=
    forall i r prev, nth_error l i = Some r -> @bad_record E r = false ->
      hd_error (rev (select (firstn i mask) (firstn i l))) = Some prev ->
      clear_decision dev prev r (skipn (S i) l).
End Real.
