(** base/base.h (history subsets) and base/history.cc. *)

From Coq Require Import ZArith Bool List.
From Verif.Model Require Import Outcome Machine Types Search.
Import ListNotations.

Section Subset.
  (** T with its timestamp_sec() getter. *)
  Context {T : Type} (ts : T -> Z).

  (** base.h:55-62 lower_bound with record_compare: index of the first record whose
      timestamp is not below [t] (on a sorted history). *)
  Definition lower_bound (history : list T) (t : Z) : nat :=
    search (fun i => match nth_error history i with
                     | Some r => (ts r <? t)%Z
                     | None => false
                     end) 0 (length history).

  (** base.h:50-69 HistorySubset: a pair of iterators (here: positions). *)
  Definition HistorySubset (history : list T) (start_timestamp_sec end_timestamp_sec : Z)
    : nat * nat :=
    let record_begin :=
      if (start_timestamp_sec >? 0)%Z then lower_bound history start_timestamp_sec else 0 in
    let record_end :=
      if (end_timestamp_sec >? 0)%Z then lower_bound history end_timestamp_sec
      else length history in
    (record_begin, record_end).

  (** The records in an iterator range [b, e) with b <= e. *)
  Definition range (history : list T) (b e : nat) : list T :=
    firstn (e - b) (skipn b history).

  (** base.h:73-88 HistorySubsetCopy.  A negative distance is passed to
      vector::reserve as a huge size_t, which throws std::length_error. *)
  Definition HistorySubsetCopy (history : list T) (start_timestamp_sec end_timestamp_sec : Z)
    : outcome (list T) :=
    let (b, e) := HistorySubset history start_timestamp_sec end_timestamp_sec in
    if (b =? e)%nat then Done []
    else if (e <? b)%nat then Thrown
    else Done (range history b e).
End Subset.

(** base/history.h:11 HistoryGap. *)
Definition history_gap : Type := Z * Z.

(** history.cc:25-29 gap_cmp. *)
Definition gap_cmp (lhs rhs : history_gap) : bool :=
  let length_delta := (snd lhs - fst lhs - snd rhs + fst rhs)%Z in
  (length_delta >? 0)%Z || ((length_delta =? 0)%Z && (fst lhs <? fst rhs)%Z).

(** std::priority_queue with comparator gap_cmp, as a list of its elements.
    push adds an element; top is an element t such that gap_cmp t x is false for
    all x (gap_cmp is a strict total order on pairs, so top is unique up to equal
    pairs); pop removes one occurrence of top. *)
Definition pq_push (q : list history_gap) (g : history_gap) : list history_gap := g :: q.

Fixpoint pq_top_from (best : history_gap) (q : list history_gap) : history_gap :=
  match q with
  | [] => best
  | g :: q' => pq_top_from (if gap_cmp best g then g else best) q'
  end.

Definition gap_eqb (a b : history_gap) : bool :=
  ((fst a =? fst b) && (snd a =? snd b))%Z.

Fixpoint pq_remove (g : history_gap) (q : list history_gap) : list history_gap :=
  match q with
  | [] => []
  | x :: q' => if gap_eqb x g then q' else x :: pq_remove g q'
  end.

Definition pq_top (q : list history_gap) : option history_gap :=
  match q with [] => None | g :: q' => Some (pq_top_from g q') end.

(** pop on an empty queue is undefined; the code never does it. *)
Definition pq_pop (q : list history_gap) : list history_gap :=
  match pq_top q with None => [] | Some t => pq_remove t q end.

(** "if (gap_queue.size() > top_n) gap_queue.pop();" history.cc:40-42, 48-50 *)
Definition pq_trim (top_n : nat) (q : list history_gap) : list history_gap :=
  if (top_n <? length q)%nat then pq_pop q else q.

(** history.cc:52-55: move the queue into a vector, smallest gap first. *)
Fixpoint pq_drain (fuel : nat) (q : list history_gap) : list history_gap :=
  match fuel with
  | O => []
  | S fuel' =>
    match pq_top q with
    | None => []
    | Some t => t :: pq_drain fuel' (pq_pop q)
    end
  end.

(** operator< of std::pair<int64_t,int64_t>. *)
Definition gap_leb (a b : history_gap) : bool :=
  (fst a <? fst b)%Z || ((fst a =? fst b)%Z && (snd a <=? snd b)%Z).

(** std::sort on pairs (history.cc:56): the order is total and antisymmetric, so
    every sorting algorithm gives the same vector; insertion sort here. *)
Fixpoint gap_insert (g : history_gap) (l : list history_gap) : list history_gap :=
  match l with
  | [] => [g]
  | x :: l' => if gap_leb g x then g :: l else x :: gap_insert g l'
  end.
Definition gap_sort (l : list history_gap) : list history_gap :=
  fold_right gap_insert [] l.

Section History.
  Context {M : machine}.
  Local Open Scope flt_scope.

  (** history.cc:7-15 CheckPriceHistoryTimestamps. *)
  Fixpoint CheckPriceHistoryTimestamps (l : list price_record) : bool :=
    match l with
    | [] => true
    | r :: l' =>
      match l' with
      | [] => true
      | r' :: _ =>
        if (pr_timestamp_sec r' <? pr_timestamp_sec r)%Z then false
        else CheckPriceHistoryTimestamps l'
      end
    end.

  (** history.cc:36-45: the loop over the records; [prev] is it_prev (None = end). *)
  Fixpoint gaps_loop (top_n : nat) (prev : option price_record) (l : list price_record)
           (q : list history_gap) : option price_record * list history_gap :=
    match l with
    | [] => (prev, q)
    | r :: l' =>
      let q' := match prev with
                | Some p => pq_trim top_n (pq_push q (pr_timestamp_sec p, pr_timestamp_sec r))
                | None => q
                end in
      gaps_loop top_n (Some r) l' q'
    end.

  (** history.cc:17-58 GetPriceHistoryGaps. *)
  Definition GetPriceHistoryGaps (l : list price_record)
             (start_timestamp_sec end_timestamp_sec : Z) (top_n : nat) : list history_gap :=
    match l with
    | [] => []
    | first :: _ =>
      let q0 := if (start_timestamp_sec >? 0)%Z
                then pq_push [] (start_timestamp_sec, pr_timestamp_sec first) else [] in
      let (prev, q1) := gaps_loop top_n None l q0 in
      let q2 := if (end_timestamp_sec >? 0)%Z
                then match prev with
                     | Some p => pq_trim top_n (pq_push q1 (pr_timestamp_sec p, end_timestamp_sec))
                     | None => q1   (* not reachable: l is not empty *)
                     end
                else q1 in
      gap_sort (pq_drain (length q2) q2)
    end.

  (** history.cc:64-65. *)
  Definition MAX_LOOKAHEAD : nat := 10.
  Definition MIN_LOOKAHEAD_PERSISTENT : nat := 3.

  (** history.cc:70, 102: "price() <= 0 || volume() < 0". *)
  Definition malformed (r : price_record) : bool :=
    (pr_price r <=? #0) || (pr_volume r <? #0).

  (** history.cc:101-111: the look-ahead loop; returns lookahead_persistent. *)
  Fixpoint lookahead_loop (jumped_up jumped_down : bool) (middle_up middle_down : flt)
           (l : list price_record) (lookahead lookahead_persistent : nat) : nat :=
    match l with
    | [] => lookahead_persistent
    | r :: l' =>
      if (lookahead <? MAX_LOOKAHEAD)%nat then
        if malformed r then
          lookahead_loop jumped_up jumped_down middle_up middle_down l' lookahead lookahead_persistent
        else
          let lookahead_persistent' :=
            if (jumped_up && (pr_price r >? middle_up)) || (jumped_down && (pr_price r <? middle_down))
            then S lookahead_persistent else lookahead_persistent in
          lookahead_loop jumped_up jumped_down middle_up middle_down l' (S lookahead) lookahead_persistent'
      else lookahead_persistent
    end.

  (** history.cc:80-113: is [r] (well-formed, [rest] the records after it) an outlier
      with respect to the last clean record [prev]? *)
  Definition is_outlier (max_price_deviation_per_min : flt) (prev r : price_record)
             (rest : list price_record) : bool :=
    let reference_price := pr_price prev in
    let duration_min :=
      fmax #1 (fofZ (pr_timestamp_sec r - pr_timestamp_sec prev) / #60) in
    let jump_factor := (#1 + max_price_deviation_per_min) * fsqrt duration_min in
    let jump_up_price := reference_price * jump_factor in
    let jump_down_price := reference_price / jump_factor in
    let jumped_up := pr_price r >? jump_up_price in
    let jumped_down := pr_price r <? jump_down_price in
    if jumped_up || jumped_down then
      let middle_up_price := flit 8 10 * jump_up_price + flit 2 10 * reference_price in
      let middle_down_price := flit 8 10 * jump_down_price + flit 2 10 * reference_price in
      (lookahead_loop jumped_up jumped_down middle_up_price middle_down_price rest 0 0
       <? MIN_LOOKAHEAD_PERSISTENT)%nat
    else false.

  (** "if (outlier_indices != nullptr) outlier_indices->push_back(i)" history.cc:71-73, 116 *)
  Definition push_index (idx : option (list Z)) (i : Z) : option (list Z) :=
    match idx with None => None | Some v => Some (v ++ [i]) end.

  (** history.cc:67-118: the main loop.  [i] is the distance from begin; the clean
      history is kept newest first. *)
  Fixpoint outliers_loop (dev : flt) (l : list price_record) (i : Z)
           (clean : list price_record) (idx : option (list Z))
    : list price_record * option (list Z) :=
    match l with
    | [] => (clean, idx)
    | r :: rest =>
      if malformed r then outliers_loop dev rest (i + 1)%Z clean (push_index idx i)
      else
        match clean with
        | [] => outliers_loop dev rest (i + 1)%Z (r :: clean) idx
        | prev :: _ =>
          if is_outlier dev prev r rest
          then outliers_loop dev rest (i + 1)%Z clean (push_index idx i)
          else outliers_loop dev rest (i + 1)%Z (r :: clean) idx
        end
    end.

  (** history.cc:60-120 RemoveOutliers: the clean history and the (optional) vector
      of indices after the call. *)
  Definition RemoveOutliers (l : list price_record) (max_price_deviation_per_min : flt)
             (outlier_indices : option (list Z)) : list price_record * option (list Z) :=
    let (clean, idx) := outliers_loop max_price_deviation_per_min l 0 [] outlier_indices in
    (rev clean, idx).

  (** size_t arithmetic wraps modulo 2^64. *)
  Definition size_t_wrap (x : Z) : Z := (x mod 2 ^ 64)%Z.

  (** std::map<size_t, bool> as an association list sorted by key. *)
  Fixpoint map_upd (m : list (Z * bool)) (k : Z) (f : bool -> bool) : list (Z * bool) :=
    match m with
    | [] => [(k, f false)]                 (* operator[] inserts false *)
    | (k', b) :: m' =>
      if (k <? k')%Z then (k, f false) :: m
      else if (k =? k')%Z then (k', f b) :: m'
      else (k', b) :: map_upd m' k f
    end.

  (** history.cc:133-136: for (k = a; k < b; ++k) index_to_outlier[k] |= false. *)
  Fixpoint context_loop (n : nat) (k : Z) (m : list (Z * bool)) : list (Z * bool) :=
    match n with
    | O => m
    | S n' => context_loop n' (k + 1)%Z (map_upd m k (fun b => b || false))
    end.

  (** history.cc:129-138: the loop over the selected outliers. *)
  Fixpoint outlier_context_loop (l : list Z) (size left right : Z) (m : list (Z * bool))
    : list (Z * bool) :=
    match l with
    | [] => m
    | j :: l' =>
      let a := if (j <=? left)%Z then 0%Z else (j - left)%Z in
      let b := Z.min (size_t_wrap (j + right + 1)) size in
      let m := context_loop (Z.to_nat (b - a)) a m in
      outlier_context_loop l' size left right (map_upd m j (fun _ => true))
    end.

  (** history.cc:122-140 GetOutlierIndicesWithContext.  The size_t arguments are
      integers in [0, 2^64). *)
  Definition GetOutlierIndicesWithContext (outlier_indices : list Z) (price_history_size : Z)
             (left_context_size right_context_size last_n : Z) : list (Z * bool) :=
    let n := Z.of_nat (length outlier_indices) in
    let start_i := if ((last_n =? 0) || (n <=? last_n))%Z then 0%Z else (n - last_n)%Z in
    outlier_context_loop (skipn (Z.to_nat start_i) outlier_indices) price_history_size
                         left_context_size right_context_size [].

  (** The flat tick with zero volume after [t]; history.cc:151-162 (and
      last_n_ohlc_ticks.cc:34-44). *)
  Definition flat_tick (t : ohlc_tick) (period : Z) : ohlc_tick :=
    {| timestamp_sec := timestamp_sec t + period;
       open := close t; high := close t; low := close t; close := close t;
       volume := #0 |}.

  (** history.cc:148-163: while (back.timestamp + rate < down) push flat tick.
      [ticks] is newest first. *)
  Fixpoint fill_loop (fuel : nat) (rate down : Z) (ticks : list ohlc_tick)
    : outcome (list ohlc_tick) :=
    match ticks with
    | [] => Done []
    | t :: _ =>
      if (timestamp_sec t + rate <? down)%Z then
        match fuel with
        | O => Diverged
        | S fuel' => fill_loop fuel' rate down (flat_tick t rate :: ticks)
        end
      else Done ticks
    end.

  (** Enough iterations for a positive rate; with a negative rate the loop, once
      entered, moves away from its exit condition and never ends. *)
  Definition fill_fuel (rate down : Z) (ticks : list ohlc_tick) : nat :=
    match ticks with
    | [] => O
    | t :: _ => if (0 <? rate)%Z then Z.to_nat ((down - timestamp_sec t) / rate) else O
    end.

  (** history.cc:146-182: one iteration of the loop over the records.  C++ integer
      division truncates toward zero (Z.quot); division by zero is undefined. *)
  Definition resample_step (rate : Z) (ticks : list ohlc_tick) (r : price_record)
    : outcome (list ohlc_tick) :=
    if (rate =? 0)%Z then Undefined else
    let down := (rate * Z.quot (pr_timestamp_sec r) rate)%Z in
    do ticks <- fill_loop (fill_fuel rate down ticks) rate down ticks ;
    let new_tick :=
      {| timestamp_sec := down; open := pr_price r; high := pr_price r; low := pr_price r;
         close := pr_price r; volume := pr_volume r |} in
    match ticks with
    | [] => Done [new_tick]
    | t :: older =>
      if (timestamp_sec t <? down)%Z then Done (new_tick :: ticks)
      else
        assert_ (timestamp_sec t =? down)%Z ;;
        Done ({| timestamp_sec := timestamp_sec t; open := open t;
                 high := fmax (high t) (pr_price r);
                 low := fmin (low t) (pr_price r);
                 close := pr_price r;
                 volume := volume t + pr_volume r |} :: older)
    end.

  (** history.cc:142-185 Resample. *)
  Definition Resample (l : list price_record) (sampling_rate_sec : Z) : outcome (list ohlc_tick) :=
    omap (@rev _) (foldM (resample_step sampling_rate_sec) [] l).
End History.
