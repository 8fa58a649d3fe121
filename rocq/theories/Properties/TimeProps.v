(** Properties C25, C26: calendar arithmetic and one-month windows. *)
From Coq Require Import ZArith Bool List Lia.
From Verif.Model Require Import Machine Types TimeUtil Eval.
From Verif.Spec Require Import TimeSpec.
From Verif.Proofs Require Import TimeProofs.
Import ListNotations.
Local Open Scope Z_scope.

Lemma at_civil_any day : day_numbering day -> forall t y m d s,
  at_civil day t y m d s <-> at_civil days_from_civil t y m d s.
Proof.
  intros Hday t y m d s. unfold at_civil. split; intros (V & Hs & E); (split; [exact V|split; [exact Hs|]]);
    rewrite (numbering_unique day Hday y m d V) in *; exact E.
Qed.

(** There is one numbering of the days, and every timestamp has exactly one civil time in it. *)
Theorem C25_civil_time : exists day, day_numbering day /\
  (forall day', day_numbering day' -> forall y m d, valid_date y m d -> day' y m d = day y m d) /\
  forall t, exists y m d s, at_civil day t y m d s /\
    forall y' m' d' s', at_civil day t y' m' d' s' -> (y', m', d', s') = (y, m, d, s).
Proof.
  exists days_from_civil. split; [exact days_numbering|]. split; [exact numbering_unique|].
  intros t. destruct (to_civil t) as (y & m & d & s & H & _). exists y, m, d, s. split; [exact H|].
  intros y' m' d' s' (V' & Hs' & E'). destruct H as (V & Hs & E).
  assert (days_from_civil y m d = days_from_civil y' m' d' /\ s = s') as [Ed ->] by lia.
  pose proof (civil_of_days _ _ _ V) as C. rewrite Ed, (civil_of_days _ _ _ V') in C. injection C as -> -> ->. reflexivity.
Qed.

(** Adding k months: same day and second if the target month has the day; otherwise the
    surplus days are counted on into the following month. *)
Theorem C25_add_months : forall day, day_numbering day -> forall t y m d s k y2 m2,
  at_civil day t y m d s -> month_plus y m k = (y2, m2) ->
  (d <= month_length y2 m2 -> at_civil day (AddMonthsToTimestampSec t k) y2 m2 d s) /\
  (month_length y2 m2 < d -> forall y3 m3, next_month y2 m2 = (y3, m3) ->
     at_civil day (AddMonthsToTimestampSec t k) y3 m3 (d - month_length y2 m2) s).
Proof.
  intros day Hday t y m d s k y2 m2 H E. rewrite (at_civil_any day Hday) in H.
  rewrite (add_months t k y m d s H). unfold month_plus in E. fold (mu_of y m) in E. injection E as <- <-.
  destruct H as ([Hm Hd] & Hs & _). fold (len_of (mu_of y m + k)).
  split.
  - intros Hl. rewrite (at_civil_any day Hday). apply civil_in_month; [lia|exact Hs].
  - intros Hl y3 m3 E3. rewrite (at_civil_any day Hday).
    pose proof (civil_in_month (mu_of y m + k + 1) (d - len_of (mu_of y m + k)) s) as C.
    pose proof (len_bounds (mu_of y m + k)). pose proof (len_bounds (mu_of y m + k + 1)). pose proof (length_bounds y m).
    specialize (C ltac:(lia) Hs). rewrite first_next in C.
    replace (first_of (mu_of y m + k) + len_of (mu_of y m + k) + (d - len_of (mu_of y m + k) - 1))
      with (first_of (mu_of y m + k) + (d - 1)) in C by lia.
    set (mu := mu_of y m + k) in *. clearbody mu.
    assert (E4 : y3 = (mu + 1) / 12 /\ m3 = (mu + 1) mod 12 + 1).
    { unfold next_month in E3. pose proof (Z.div_mod mu 12 ltac:(lia)). pose proof (Z.mod_pos_bound mu 12 ltac:(lia)).
      destruct (Z.eqb_spec (mu mod 12 + 1) 12); injection E3 as <- <-; Z.div_mod_to_equations; lia. }
    destruct E4 as [-> ->]. exact C.
Qed.

Theorem C25_zero : forall t, AddMonthsToTimestampSec t 0 = t.
Proof.
  intros t. destruct (to_civil t) as (y & m & d & s & H & _). rewrite (add_months t 0 y m d s H), Z.add_0_r.
  symmetry. apply at_civil_first. exact H.
Qed.

Theorem C25_strictly_increasing : forall t k1 k2, k1 < k2 ->
  AddMonthsToTimestampSec t k1 + 86400 * 28 * (k2 - k1) <= AddMonthsToTimestampSec t k2.
Proof.
  intros t k1 k2 Hk. destruct (to_civil t) as (y & m & d & s & H & _). rewrite !(add_months t _ y m d s H).
  pose proof (first_gap (mu_of y m + k1) (k2 - k1) ltac:(lia)) as G.
  replace (mu_of y m + k1 + (k2 - k1)) with (mu_of y m + k2) in G by lia. lia.
Qed.

(** 2021-01-31 01:00:00 plus one month is 2021-03-03 01:00:00, plus 13 months 2022-03-03. *)
Lemma C25_ex :
  at_civil days_from_civil 1612054800 2021 1 31 3600 /\ AddMonthsToTimestampSec 1612054800 1 = 1614733200 /\
  at_civil days_from_civil 1614733200 2021 3 3 3600 /\
  at_civil days_from_civil (AddMonthsToTimestampSec 1612054800 (-11)) 2020 3 2 3600.
Proof. repeat split; vm_compute; congruence. Qed.

(** Adding months in two steps, when the day exists in every month. *)
Lemma add_add_months t y m d s k1 k2 : at_civil days_from_civil t y m d s -> d <= 28 ->
  AddMonthsToTimestampSec (AddMonthsToTimestampSec t k1) k2 = AddMonthsToTimestampSec t (k1 + k2).
Proof.
  intros H Hd. rewrite (add_months t k1 y m d s H), (add_months t (k1 + k2) y m d s H).
  destruct H as ([Hm Hd'] & Hs & _).
  pose proof (len_bounds (mu_of y m + k1)).
  pose proof (civil_in_month (mu_of y m + k1) d s ltac:(lia) Hs) as C.
  rewrite (add_months _ k2 _ _ _ _ C), mu_decompose, Z.add_assoc. reflexivity.
Qed.

(** ** C26 *)
Section Tiling.
  Context {M : machine}.

  (** The windows of EvaluateTrader with a one-month period tile the time line if and only
      if the start is not after the 28th of a month. *)
  Theorem C26_one_month_windows : forall day, day_numbering day -> forall ec y m d s,
    evaluation_period_months ec = 1 -> at_civil day (ec_start_timestamp_sec ec) y m d s ->
    (d <= 28 <-> forall k, 0 <= k -> snd (eval_window ec k) = fst (eval_window ec (k + 1))).
  Proof.
    intros day Hday ec y m d s Hp H. rewrite (at_civil_any day Hday) in H. unfold eval_window. rewrite Hp. change (1 >? 0) with true.
    cbv iota. cbn [fst snd]. split.
    - intros Hd k _. apply (add_add_months _ y m d s); auto.
    - intros T. destruct (Z_le_gt_dec d 28) as [Hd|Hd]; [exact Hd|exfalso].
      (* a coming February with 28 days *)
      assert (exists y2, y < y2 /\ leap_year y2 = false) as (y2 & Hy2 & L).
      { destruct (leap_year (y + 1)) eqn:L1; [|exists (y + 1); split; [lia|exact L1]].
        exists (y + 2). split; [lia|]. unfold leap_year in *. apply andb_true_iff in L1 as [L1 _]. apply Z.eqb_eq in L1.
        destruct (Z.eqb_spec ((y + 2) mod 4) 0) as [E|E]; [Z.div_mod_to_equations; lia|reflexivity]. }
      pose proof H as ([Hm Hd'] & Hs & _). pose proof (length_bounds y m).
      set (k := mu_of y2 2 - mu_of y m). specialize (T k ltac:(unfold k, mu_of; lia)).
      rewrite !(add_months _ _ y m d s H) in T.
      replace (mu_of y m + k) with (mu_of y2 2) in T by (unfold k; lia).
      replace (mu_of y m + (k + 1)) with (mu_of y2 2 + 1) in T by (unfold k; lia).
      destruct (mu_month y2 2 ltac:(lia)) as [E1 E2].
      assert (Lf : len_of (mu_of y2 2) = 28) by (unfold len_of; rewrite E1, E2; unfold month_length; cbn; rewrite L; reflexivity).
      assert (Lm : len_of (mu_of y2 2 + 1) = 31).
      { destruct (mu_month y2 3 ltac:(lia)) as [E3 E4]. unfold len_of.
        replace (mu_of y2 2 + 1) with (mu_of y2 3) by (unfold mu_of; lia). rewrite E3, E4. reflexivity. }
      set (f := mu_of y2 2) in *.
      pose proof (civil_in_month (f + 1) (d - 28) s ltac:(lia) Hs) as C.
      replace (first_of f + (d - 1)) with (first_of (f + 1) + (d - 28 - 1)) in T by (rewrite first_next; lia).
      rewrite (add_months _ 1 _ _ _ _ C), mu_decompose in T. rewrite (first_next (f + 1)) in T. lia.
  Qed.

  (** From Jan 31: the window of March 3 to April 3 is followed by one starting March 31. *)
  Theorem C26_tiling_refuted : exists ec, evaluation_period_months ec = 1 /\
    fst (eval_window ec 2) < snd (eval_window ec 1).
  Proof.
    exists {| ec_start_timestamp_sec := 1612051200; ec_end_timestamp_sec := 1700000000; evaluation_period_months := 1; fast_eval := true |}.
    split; [reflexivity|vm_compute; reflexivity].
  Qed.
End Tiling.
