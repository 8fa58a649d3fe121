(** Aggregation of time-stamped ticks into periodic ticks. *)
From Coq Require Import ZArith List.
From Verif.Model Require Import Outcome Machine Types.
Import ListNotations.

(** The list is ordered by time (equal times allowed). *)
Definition ordered {T} (ts : T -> Z) (l : list T) : Prop :=
  forall i j x y, nth_error l i = Some x -> nth_error l j = Some y -> (i < j)%nat ->
                  (ts x <= ts y)%Z.

(** The start of the period that time t belongs to (division rounding toward zero). *)
Definition bucket (p t : Z) : Z := (p * Z.quot t p)%Z.

Section Spec.
  Context {M : machine}.

  Definition bucket_of (p : Z) (u : ohlc_tick) : Z := bucket p (timestamp_sec u).

  (** The updates inside the period starting at b, and those of earlier periods. *)
  Definition in_period (p : Z) (us : list ohlc_tick) (b : Z) : list ohlc_tick :=
    filter (fun u => (bucket_of p u =? b)%Z) us.
  Definition before_period (p : Z) (us : list ohlc_tick) (b : Z) : list ohlc_tick :=
    filter (fun u => (bucket_of p u <? b)%Z) us.

  (** A flat tick without volume. *)
  Definition flat_at (b : Z) (price : flt) : ohlc_tick :=
    {| timestamp_sec := b; open := price; high := price; low := price; close := price;
       volume := fofZ 0 |}.

  (** The tick of the period starting at b: open of the first update, highest high, lowest
      low, close of the last update, summed volume; flat at the last earlier close if there
      is no update in the period. *)
  Definition period_tick (p : Z) (us : list ohlc_tick) (b : Z) : ohlc_tick :=
    match in_period p us b with
    | u :: rest =>
      {| timestamp_sec := b; open := open u;
         high := fold_left fmax (map high rest) (high u);
         low := fold_left fmin (map low rest) (low u);
         close := close (last rest u);
         volume := fold_left fadd (map volume rest) (volume u) |}
    | [] =>
      flat_at b (match rev (before_period p us b) with u :: _ => close u | [] => fofZ 0 end)
    end.

  (** The starts of all periods from the first to the last update. *)
  Definition grid (p : Z) (us : list ohlc_tick) : list Z :=
    match us with
    | [] => []
    | u :: _ =>
      let b0 := bucket_of p u in
      let bn := bucket_of p (last us u) in
      map (fun i => (b0 + Z.of_nat i * p)%Z) (seq 0 (S (Z.to_nat ((bn - b0) / p))))
    end.

  (** The periodic ticks. *)
  Definition series (p : Z) (us : list ohlc_tick) : list ohlc_tick :=
    map (period_tick p us) (grid p us).

  (** The last n elements of a list. *)
  Definition lastn {A} (n : nat) (l : list A) : list A := skipn (length l - n) l.

  (** A price record seen as a tick. *)
  Definition price_tick (r : price_record) : ohlc_tick :=
    {| timestamp_sec := pr_timestamp_sec r; open := pr_price r; high := pr_price r;
       low := pr_price r; close := pr_price r; volume := pr_volume r |}.
End Spec.

(** A well-formed tick: positive prices, open and close between low and high, volume not
    negative (every comparison is true, so no price is NaN). *)
Definition valid_tick {M : machine} (t : ohlc_tick) : Prop :=
  fltb (fofZ 0) (low t) = true /\
  fleb (low t) (open t) = true /\ fleb (low t) (close t) = true /\
  fleb (open t) (high t) = true /\ fleb (close t) (high t) = true /\
  fleb (fofZ 0) (volume t) = true.
