(** The trailing stop in single precision. *)
From Coq Require Import Reals ZArith List.
From Flocq Require Import Core BinarySingleNaN.
From Verif.Model Require Import Machine Types Traders MachineIEEE.
From Verif.Spec Require Import TraderSpec.
Local Open Scope R_scope.

(** A C library whose expf and logf are accurate to one unit in the last place, where the stop
    trader uses them. *)
Definition one_ulp (x y : R) : Prop := Rabs (x - y) <= bpow radix2 (-23) * Rabs y.
Record accurate (lm : libm) : Prop := Accurate {
  exp_accurate : forall x : f32, is_finite x = true -> Rabs (B2R x) <= 1 ->
    is_finite (libm_expf lm x) = true /\ one_ulp (B2R (libm_expf lm x)) (exp (B2R x));
  log_accurate : forall x : f32, is_finite x = true -> / 4 <= B2R x <= 4 ->
    is_finite (libm_logf lm x) = true /\ one_ulp (B2R (libm_logf lm x)) (ln (B2R x))
}.
(** ... and one whose expf returns the float nearest to the exponential. *)
Definition nearest_exp (lm : libm) : Prop :=
  forall x : f32, is_finite x = true -> Rabs (B2R x) <= 1 ->
    is_finite (libm_expf lm x) = true
    /\ B2R (libm_expf lm x) = round radix2 (FLT_exp (-149) 24) ZnearestE (exp (B2R x)).

Section Trail.
  Context {lm : libm} {as_ : bool}.
  Local Notation I := (ieee lm as_).

  (** Daily rates: at most doubling, at most halving. *)
  Definition ok_rates (c : @stop_config I) : Prop :=
    number_in 0 1 (stop_order_increase_per_day c) /\ number_in 0 (/ 2) (stop_order_decrease_per_day c).

  (** The daily rate compounded over the elapsed time (a real number). *)
  Definition rate (c : @stop_config I) (v0 v : @view I) : R :=
    let days := IZR (v_time v - v_time v0) / 86400 in
    if is_long v
    then Rpower (1 + B2R (stop_order_increase_per_day c : f32)) days
    else Rpower (1 - B2R (stop_order_decrease_per_day c : f32)) days.

  (** The stop at p moves to p': it stays when it is beyond the limit; otherwise it goes to q,
      but not beyond the limit, and not backwards. *)
  Definition trails (c : @stop_config I) (v : @view I) (p q p' : R) : Prop :=
    let limit := B2R (follow_limit c v : f32) in
    if is_long v
    then p' = (if Rle_dec p limit then Rmax p (Rmin limit q) else p)
    else p' = (if Rle_dec limit p then Rmin p (Rmax limit q) else p).

  (** The margin does not hold the stop back. *)
  Definition free (c : @stop_config I) (v : @view I) (p : R) : Prop :=
    let limit := B2R (follow_limit c v : f32) in
    if is_long v then p < limit else limit < p.

  (** An hour or a change of side does not separate the updates i to j, and time advances. *)
  Definition one_position (vs : list (@view I)) (i j : nat) : Prop :=
    forall k v0 v, (i <= k < j)%nat -> nth_error vs k = Some v0 -> nth_error vs (S k) = Some v ->
      ~ new_position v0 v /\ (v_time v0 < v_time v)%Z.

  (** A daily rate too small for the time between two updates. *)
  Definition slow (c : @stop_config I) (v0 v : @view I) : Prop :=
    let gap := IZR (v_time v - v_time v0) in
    if is_long v then gap * B2R (stop_order_increase_per_day c : f32) <= / 250
    else gap * B2R (stop_order_decrease_per_day c : f32) <= / 500.
End Trail.
