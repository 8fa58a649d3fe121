(** Histories: intervals, gaps, outliers. *)
From Coq Require Import ZArith Bool List.
From Verif.Model Require Import Outcome Machine Types.
Import ListNotations.
Local Open Scope Z_scope.

(** Time t lies in the half-open interval [start, end_); a bound that is not positive means
    unbounded on that side. *)
Definition in_interval (start end_ t : Z) : bool :=
  ((start <=? 0) || (start <=? t)) && ((end_ <=? 0) || (t <? end_)).

(** ** Outliers *)
Section Outliers.
  Context {M : machine}.

  (** The elements of l where the mask is true. *)
  Fixpoint select {A} (mask : list bool) (l : list A) : list A :=
    match mask, l with
    | true :: mask', x :: l' => x :: select mask' l'
    | false :: mask', _ :: l' => select mask' l'
    | _, _ => []
    end.

  (** The positions (from i on) where the mask is false. *)
  Fixpoint dropped (i : Z) (mask : list bool) : list Z :=
    match mask with
    | [] => []
    | true :: mask' => dropped (i + 1) mask'
    | false :: mask' => i :: dropped (i + 1) mask'
    end.

  (** A record with a non-positive price or a negative volume. *)
  Definition bad_record (r : price_record) : bool :=
    fleb (pr_price r) (fofZ 0) || fltb (pr_volume r) (fofZ 0).

  (** How far the price may move between two records: (1 + dev) * sqrt(minutes), at least
      one minute. *)
  Definition jump_factor (dev : flt) (prev r : price_record) : flt :=
    fmul (fadd (fofZ 1) dev)
         (fsqrt (fmax (fofZ 1) (fdiv (fofZ (pr_timestamp_sec r - pr_timestamp_sec prev)) (fofZ 60)))).
  Definition upper_edge dev prev r := fmul (pr_price prev) (jump_factor dev prev r).
  Definition lower_edge dev prev r := fdiv (pr_price prev) (jump_factor dev prev r).
  (** 80% of the way from the previous price to the edge. *)
  Definition toward (edge : flt) (prev : price_record) : flt :=
    fadd (fmul (flit 8 10) edge) (fmul (flit 2 10) (pr_price prev)).

  Definition jumps_up dev prev r : bool := fltb (upper_edge dev prev r) (pr_price r).
  Definition jumps_down dev prev r : bool := fltb (pr_price r) (lower_edge dev prev r).

  (** A later record confirms the jump. *)
  Definition confirms dev prev r (x : price_record) : bool :=
    (jumps_up dev prev r && fltb (toward (upper_edge dev prev r) prev) (pr_price x))
    || (jumps_down dev prev r && fltb (pr_price x) (toward (lower_edge dev prev r) prev)).

  (** The jump is confirmed by fewer than 3 of the next 10 well-formed records. *)
  Definition unsupported_jump dev prev r (later : list price_record) : bool :=
    (jumps_up dev prev r || jumps_down dev prev r) &&
    (length (filter (confirms dev prev r)
                    (firstn 10 (filter (fun x => negb (bad_record x)) later))) <? 3)%nat.

  (** The mask keeps exactly the right records. *)
  Definition right_mask (dev : flt) (l : list price_record) (mask : list bool) : Prop :=
    length mask = length l /\
    forall i r, nth_error l i = Some r ->
      nth_error mask i = Some
        (negb (bad_record r) &&
         match rev (select (firstn i mask) (firstn i l)) with
         | [] => true
         | prev :: _ => negb (unsupported_jump dev prev r (skipn (S i) l))
         end).
End Outliers.

(** ** Outlier context *)

(** k is at most left before / right after j and inside the history. *)
Definition near (size left right j k : Z) : Prop := 0 <= k < size /\ j - left <= k <= j + right.

(** The last n elements (all if n is 0). *)
Definition last_outliers (n : Z) (l : list Z) : list Z :=
  if n =? 0 then l else skipn (length l - Z.to_nat n) l.

(** ** Gaps *)
Definition gap_length (g : Z * Z) : Z := snd g - fst g.

Fixpoint consecutive (ts : list Z) : list (Z * Z) :=
  match ts with
  | a :: ((b :: _) as ts') => (a, b) :: consecutive ts'
  | _ => []
  end.

(** All gaps of a history with the given timestamps: between consecutive records, from a
    positive start to the first record, from the last record to a positive end. *)
Definition all_gaps (ts : list Z) (start end_ : Z) : list (Z * Z) :=
  match ts with
  | [] => []
  | a :: _ =>
    (if 0 <? start then [(start, a)] else []) ++ consecutive ts ++
    (if 0 <? end_ then [(last ts a, end_)] else [])
  end.

(** g is reported in preference to h: it is longer, or as long and not later. *)
Definition preferred (g h : Z * Z) : Prop :=
  gap_length h < gap_length g \/ (gap_length h = gap_length g /\ fst g <= fst h).

(** Chronological order of gaps: by start, then by end. *)
Definition chronological (l : list (Z * Z)) : Prop :=
  forall i j g h, nth_error l i = Some g -> nth_error l j = Some h -> (i < j)%nat ->
                  fst g < fst h \/ (fst g = fst h /\ snd g <= snd h).
