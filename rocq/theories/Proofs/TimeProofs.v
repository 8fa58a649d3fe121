(** Calendar arithmetic. *)
From Coq Require Import ZArith Bool List Lia.
From Verif.Model Require Import TimeUtil.
From Verif.Spec Require Import TimeSpec.
Import ListNotations.
Local Open Scope Z_scope.

(** *** Checking a property of all integers in a range by computation. *)
Fixpoint all_from (f : Z -> bool) (n : nat) (k : Z) : bool :=
  match n with O => true | S n' => f k && all_from f n' (k + 1) end.

Lemma all_from_spec f n k : all_from f n k = true -> forall z, k <= z < k + Z.of_nat n -> f z = true.
Proof.
  revert k. induction n as [|n IH]; intros k H z Hz; [lia|]. cbn [all_from] in H. apply andb_true_iff in H as [H1 H2].
  destruct (Z.eq_dec z k) as [->|Hne]; [exact H1|]. apply (IH (k + 1)); auto. lia.
Qed.

(** *** Periodicity: 400 years are 146097 days. *)
Lemma days_period y m d e : days_from_civil (y + 400 * e) m d = days_from_civil y m d + 146097 * e.
Proof.
  unfold days_from_civil.
  replace (if m <=? 2 then y + 400 * e - 1 else y + 400 * e) with ((if m <=? 2 then y - 1 else y) + e * 400) by (destruct (m <=? 2); lia).
  set (y' := if m <=? 2 then y - 1 else y). rewrite Z.div_add by lia.
  replace (y' + e * 400 - (y' / 400 + e) * 400) with (y' - y' / 400 * 400) by lia.
  set (yoe := y' - y' / 400 * 400). lia.
Qed.

Lemma leap_period y e : leap_year (y + 400 * e) = leap_year y.
Proof.
  unfold leap_year.
  replace (y + 400 * e) with (y + (100 * e) * 4) at 1 by lia. rewrite Z.mod_add by lia.
  replace (y + 400 * e) with (y + (4 * e) * 100) at 1 by lia. rewrite Z.mod_add by lia.
  replace (y + 400 * e) with (y + e * 400) by lia. rewrite Z.mod_add by lia. reflexivity.
Qed.

Lemma length_period y m e : month_length (y + 400 * e) m = month_length y m.
Proof. unfold month_length. rewrite leap_period. reflexivity. Qed.

Lemma length_bounds y m : 28 <= month_length y m <= 31.
Proof. unfold month_length. destruct (m =? 2), (leap_year y), ((m =? 4) || (m =? 6) || (m =? 9) || (m =? 11)); lia. Qed.

(** *** One 400-year era.  Years are counted from March: year yoe of the era starts at day
    year_start yoe of the era and has year_len yoe days. *)
Definition year_start (yoe : Z) : Z := yoe * 365 + yoe / 4 - yoe / 100.
Definition year_len (yoe : Z) : Z := if leap_year (yoe + 1) then 366 else 365.
Definition yoe_of (doe : Z) : Z := (doe - doe / 1460 + doe / 36524 - doe / 146096) / 365.

Definition year_check (y : Z) : bool :=
  (year_start y + year_len y =? if y =? 399 then 146097 else year_start (y + 1)) &&
  (yoe_of (year_start y) =? y) && (yoe_of (year_start y + year_len y - 1) =? y).

Lemma years_ok : all_from year_check 400 0 = true.
Proof. vm_compute. reflexivity. Qed.

Lemma year_facts y : 0 <= y < 400 ->
  year_start y + year_len y = (if y =? 399 then 146097 else year_start (y + 1)) /\
  yoe_of (year_start y) = y /\ yoe_of (year_start y + year_len y - 1) = y.
Proof.
  intros H. pose proof (all_from_spec _ _ _ years_ok y ltac:(lia)) as K. unfold year_check in K.
  rewrite !andb_true_iff, !Z.eqb_eq in K. tauto.
Qed.

Lemma yoe_mono a b : 0 <= a -> a <= b -> b < 146097 -> yoe_of a <= yoe_of b.
Proof.
  intros Ha Hab Hb. unfold yoe_of. apply Z.div_le_mono; [lia|].
  assert (a / 36524 <= b / 36524) by (apply Z.div_le_mono; lia).
  assert (a - a / 1460 <= b - b / 1460).
  { assert (b / 1460 <= a / 1460 + (b - a)); [|lia].
    replace (a / 1460 + (b - a)) with ((a + (b - a) * 1460) / 1460) by (apply Z.div_add; lia).
    apply Z.div_le_mono; lia. }
  assert (0 <= a / 146096) by (apply Z.div_pos; lia).
  destruct (Z.eq_dec b 146096) as [->|Hne].
  - destruct (Z.eq_dec a 146096) as [->|Hne']; [lia|].
    assert (a / 36524 <= 3) by (assert (a / 36524 < 4) by (apply Z.div_lt_upper_bound; lia); lia).
    change (146096 / 36524) with 4. change (146096 / 146096) with 1. lia.
  - rewrite (Z.div_small b 146096) by lia. rewrite (Z.div_small a 146096) by lia. lia.
Qed.

Lemma year_start_nonneg y : 0 <= y -> 0 <= year_start y.
Proof. intros H. unfold year_start. assert (y / 100 <= y / 4) by (Z.div_mod_to_equations; lia). lia. Qed.

Lemma year_end y : 0 <= y < 400 -> year_start y + year_len y <= 146097.
Proof.
  intros H. revert y H.
  assert (K : forall n, (n < 400)%nat -> year_start (399 - Z.of_nat n) + year_len (399 - Z.of_nat n) <= 146097).
  { induction n as [|n IH]; intros Hn; [vm_compute; discriminate|].
    specialize (IH ltac:(lia)). destruct (year_facts (399 - Z.of_nat (S n)) ltac:(lia)) as [E _].
    destruct (Z.eqb_spec (399 - Z.of_nat (S n)) 399); [lia|].
    replace (399 - Z.of_nat (S n) + 1) with (399 - Z.of_nat n) in E by lia.
    assert (0 <= year_len (399 - Z.of_nat n)) by (unfold year_len; destruct (leap_year _); lia). lia. }
  intros y H. specialize (K (Z.to_nat (399 - y)) ltac:(lia)). replace (399 - Z.of_nat (Z.to_nat (399 - y))) with y in K by lia. exact K.
Qed.

Lemma yoe_in_year y doe : 0 <= y < 400 -> year_start y <= doe < year_start y + year_len y -> yoe_of doe = y.
Proof.
  intros Hy Hd. destruct (year_facts y Hy) as (_ & E1 & E2). pose proof (year_end y Hy). pose proof (year_start_nonneg y ltac:(lia)).
  pose proof (yoe_mono (year_start y) doe ltac:(lia) ltac:(lia) ltac:(lia)).
  pose proof (yoe_mono doe (year_start y + year_len y - 1) ltac:(lia) ltac:(lia) ltac:(lia)). lia.
Qed.

Lemma year_exists doe : 0 <= doe < 146097 -> exists y, 0 <= y < 400 /\ year_start y <= doe < year_start y + year_len y.
Proof.
  intros Hd.
  assert (K : forall n, (n <= 399)%nat -> (exists y, 0 <= y < 400 /\ year_start y <= doe < year_start y + year_len y) \/ year_start (Z.of_nat n) <= doe).
  { induction n as [|n IH]; intros Hn; [right; change (year_start (Z.of_nat 0)) with 0; lia|].
    destruct IH as [H|H]; [lia|left; exact H|].
    destruct (Z_lt_ge_dec doe (year_start (Z.of_nat n) + year_len (Z.of_nat n))) as [Hl|Hg].
    - left. exists (Z.of_nat n). lia.
    - right. destruct (year_facts (Z.of_nat n) ltac:(lia)) as [E _]. destruct (Z.eqb_spec (Z.of_nat n) 399); [lia|].
      replace (Z.of_nat (S n)) with (Z.of_nat n + 1) by lia. lia. }
  destruct (K 399%nat ltac:(lia)) as [H|H]; [exact H|]. exists 399. split; [lia|]. split; [exact H|].
  destruct (year_facts 399 ltac:(lia)) as [E _]. rewrite Z.eqb_refl in E. lia.
Qed.

(** The months of a year starting in March. *)
Definition mp_of (doy : Z) : Z := (5 * doy + 2) / 153.
Definition mp_start (mp : Z) : Z := (153 * mp + 2) / 5.
Definition mp_len (leap : bool) (mp : Z) : Z :=
  if mp =? 11 then (if leap then 29 else 28)
  else if (mp =? 1) || (mp =? 3) || (mp =? 6) || (mp =? 8) then 30 else 31.

Definition doy_check (leap : bool) (doy : Z) : bool :=
  let mp := mp_of doy in let d := doy - mp_start mp + 1 in
  (0 <=? mp) && (mp <=? 11) && (1 <=? d) && (d <=? mp_len leap mp).

Lemma doys_ok : all_from (doy_check true) 366 0 && all_from (doy_check false) 365 0 = true.
Proof. vm_compute. reflexivity. Qed.

Definition mp_check (leap : bool) (mp : Z) : bool :=
  all_from (fun d => (0 <=? mp_start mp + d - 1) && (mp_start mp + d - 1 <? if leap then 366 else 365)
                     && (mp_of (mp_start mp + d - 1) =? mp)) (Z.to_nat (mp_len leap mp)) 1.

Lemma mps_ok : all_from (mp_check true) 12 0 && all_from (mp_check false) 12 0 = true.
Proof. vm_compute. reflexivity. Qed.

Lemma doy_facts (leap : bool) doy : 0 <= doy < (if leap then 366 else 365) ->
  let mp := mp_of doy in let d := doy - mp_start mp + 1 in 0 <= mp <= 11 /\ 1 <= d <= mp_len leap mp.
Proof.
  intros H. pose proof doys_ok as K. apply andb_true_iff in K as [K1 K2].
  assert (K : doy_check leap doy = true).
  { destruct leap; [apply (all_from_spec _ _ _ K1); lia|apply (all_from_spec _ _ _ K2); lia]. }
  unfold doy_check in K. rewrite !andb_true_iff, !Z.leb_le in K. cbv zeta. lia.
Qed.

Lemma mp_facts (leap : bool) mp d : 0 <= mp <= 11 -> 1 <= d <= mp_len leap mp ->
  0 <= mp_start mp + d - 1 < (if leap then 366 else 365) /\ mp_of (mp_start mp + d - 1) = mp.
Proof.
  intros H Hd. pose proof mps_ok as K. apply andb_true_iff in K as [K1 K2].
  assert (K : mp_check leap mp = true).
  { destruct leap; [apply (all_from_spec _ _ _ K1); lia|apply (all_from_spec _ _ _ K2); lia]. }
  unfold mp_check in K. pose proof (all_from_spec _ _ _ K d ltac:(lia)) as K'.
  rewrite !andb_true_iff, Z.leb_le, Z.ltb_lt, Z.eqb_eq in K'. lia.
Qed.

Lemma mp_len_month leap mp y m : 0 <= mp <= 11 -> m = (if mp <? 10 then mp + 3 else mp - 9) ->
  (m = 2 -> leap = leap_year y) -> mp_len leap mp = month_length y m.
Proof.
  intros Hmp -> Hl. assert (mp = 0 \/ mp = 1 \/ mp = 2 \/ mp = 3 \/ mp = 4 \/ mp = 5 \/ mp = 6 \/ mp = 7 \/ mp = 8 \/ mp = 9 \/ mp = 10 \/ mp = 11) as C by lia.
  repeat destruct C as [->|C]; try reflexivity. subst mp. cbn in *. rewrite (Hl eq_refl). reflexivity.
Qed.

(** *** Both directions. *)
Lemma days_alt y m d yoe era mp :
  1 <= m <= 12 -> 0 <= yoe < 400 -> (if m <=? 2 then y - 1 else y) = yoe + era * 400 ->
  mp = (if m <=? 2 then m + 9 else m - 3) ->
  days_from_civil y m d = era * 146097 + (year_start yoe + (mp_start mp + d - 1)) - 719468.
Proof.
  intros Hm Hy Ey ->. unfold days_from_civil. rewrite Ey.
  rewrite Z.div_add by lia. rewrite (Z.div_small yoe 400) by lia.
  replace (yoe + era * 400 - (0 + era) * 400) with yoe by lia. unfold year_start, mp_start. lia.
Qed.

Lemma civil_alt z era doe : z + 719468 = doe + era * 146097 -> 0 <= doe < 146097 ->
  civil_from_days z =
    let yoe := yoe_of doe in let doy := doe - year_start yoe in let mp := mp_of doy in
    let m := if mp <? 10 then mp + 3 else mp - 9 in
    (yoe + era * 400 + (if m <=? 2 then 1 else 0), m, doy - mp_start mp + 1).
Proof.
  intros E Hd. unfold civil_from_days. rewrite E. rewrite Z.div_add by lia. rewrite (Z.div_small doe) by lia.
  replace (doe + era * 146097 - (0 + era) * 146097) with doe by lia.
  fold (yoe_of doe). cbv zeta. replace (365 * yoe_of doe + yoe_of doe / 4 - yoe_of doe / 100) with (year_start (yoe_of doe)) by (unfold year_start; lia).
  reflexivity.
Qed.

(** The civil date of a day number is valid and has that day number. *)
Lemma civil_correct z y m d : civil_from_days z = (y, m, d) -> valid_date y m d /\ days_from_civil y m d = z.
Proof.
  intros H. set (era := (z + 719468) / 146097). set (doe := (z + 719468) mod 146097).
  assert (Hd : 0 <= doe < 146097) by (apply Z.mod_pos_bound; lia).
  assert (E : z + 719468 = doe + era * 146097) by (unfold doe, era; pose proof (Z.div_mod (z + 719468) 146097); lia).
  rewrite (civil_alt z era doe E Hd) in H. cbv zeta in H.
  destruct (year_exists doe Hd) as (yoe & Hy & Hin). rewrite (yoe_in_year yoe doe Hy Hin) in H.
  set (doy := doe - year_start yoe) in *. unfold year_len in Hin.
  destruct (doy_facts (leap_year (yoe + 1)) doy) as [Hmp Hdd]; [unfold doy; lia|].
  set (mp := mp_of doy) in *. set (m0 := if mp <? 10 then mp + 3 else mp - 9) in *.
  assert (Hm0 : 1 <= m0 <= 12) by (unfold m0; destruct (Z.ltb_spec mp 10); lia).
  injection H as <- <- <-.
  assert (Hlen : mp_len (leap_year (yoe + 1)) mp = month_length (yoe + era * 400 + (if m0 <=? 2 then 1 else 0)) m0).
  { apply mp_len_month; [exact Hmp|reflexivity|]. intros E2. rewrite E2. change (2 <=? 2) with true. cbv iota.
    replace (yoe + era * 400 + 1) with (yoe + 1 + 400 * era) by lia.
    rewrite leap_period. reflexivity. }
  split; [split; [exact Hm0|lia]|].
  rewrite (days_alt _ _ _ yoe era mp Hm0 Hy).
  - unfold doy. lia.
  - destruct (m0 <=? 2); lia.
  - unfold m0. destruct (Z.ltb_spec mp 10).
    + destruct (Z.leb_spec (mp + 3) 2); lia.
    + destruct (Z.leb_spec (mp - 9) 2); lia.
Qed.

(** A valid date is the civil date of its day number. *)
Lemma civil_of_days y m d : valid_date y m d -> civil_from_days (days_from_civil y m d) = (y, m, d).
Proof.
  intros [Hm Hd]. set (y' := if m <=? 2 then y - 1 else y).
  set (era := y' / 400). set (yoe := y' mod 400).
  assert (Hy : 0 <= yoe < 400) by (apply Z.mod_pos_bound; lia).
  assert (Ey : y' = yoe + era * 400) by (unfold yoe, era; pose proof (Z.div_mod y' 400); lia).
  set (mp := if m <=? 2 then m + 9 else m - 3).
  assert (Hmp : 0 <= mp <= 11) by (unfold mp; destruct (Z.leb_spec m 2); lia).
  assert (Em : m = if mp <? 10 then mp + 3 else mp - 9).
  { unfold mp. destruct (Z.leb_spec m 2); [destruct (Z.ltb_spec (m + 9) 10)|destruct (Z.ltb_spec (m - 3) 10)]; lia. }
  assert (Hlen : mp_len (leap_year (yoe + 1)) mp = month_length y m).
  { apply mp_len_month; [exact Hmp|exact Em|]. intros E2. unfold y' in Ey. rewrite E2 in Ey. cbn in Ey.
    replace y with (yoe + 1 + 400 * era) by lia. rewrite leap_period. reflexivity. }
  destruct (mp_facts (leap_year (yoe + 1)) mp d Hmp) as [Hdoy Emp]; [lia|].
  rewrite (days_alt y m d yoe era mp Hm Hy Ey eq_refl).
  set (doy := mp_start mp + d - 1) in *. set (doe := year_start yoe + doy).
  pose proof (year_end yoe Hy). pose proof (year_start_nonneg yoe ltac:(lia)). unfold year_len in *.
  assert (Hdoe : 0 <= doe < 146097) by (unfold doe; lia).
  rewrite (civil_alt _ era doe) by (auto; lia). cbv zeta.
  rewrite (yoe_in_year yoe doe Hy) by (unfold doe, year_len; lia).
  replace (doe - year_start yoe) with doy by (unfold doe; lia). rewrite Emp, <- Em.
  replace (doy - mp_start mp + 1) with d by (unfold doy; lia). f_equal. f_equal.
  rewrite <- Ey. unfold y'. destruct (m <=? 2); lia.
Qed.

(** The first of the next month. *)
Lemma days_next_month y m : 1 <= m <= 12 ->
  days_from_civil (fst (next_month y m)) (snd (next_month y m)) 1 = days_from_civil y m 1 + month_length y m.
Proof.
  intros Hm. destruct (Z.eq_dec m 2) as [->|Hne].
  - change (fst (next_month y 2)) with y. change (snd (next_month y 2)) with 3.
    set (yoe := (y - 1) mod 400). set (era := (y - 1) / 400).
    assert (Hy : 0 <= yoe < 400) by (apply Z.mod_pos_bound; lia).
    assert (Ey : y - 1 = yoe + era * 400) by (unfold yoe, era; pose proof (Z.div_mod (y - 1) 400); lia).
    rewrite (days_alt y 2 1 yoe era 11) by (auto; lia).
    destruct (year_facts yoe Hy) as [E _]. unfold year_len in E.
    assert (Hl : month_length y 2 = if leap_year (yoe + 1) then 29 else 28).
    { unfold month_length. cbn. replace y with (yoe + 1 + 400 * era) by lia. rewrite leap_period. reflexivity. }
    rewrite Hl. change (mp_start 11) with 337.
    destruct (Z.eqb_spec yoe 399) as [E9|N9].
    + rewrite (days_alt y 3 1 0 (era + 1) 0) by (auto; cbn; lia). change (mp_start 0) with 0. change (year_start 0) with 0.
      destruct (leap_year (yoe + 1)); lia.
    + rewrite (days_alt y 3 1 (yoe + 1) era 0) by (auto; cbn; lia). change (mp_start 0) with 0.
      destruct (leap_year (yoe + 1)); lia.
  - set (y' := if m <=? 2 then y - 1 else y). set (yoe := y' mod 400). set (era := y' / 400).
    assert (Hy : 0 <= yoe < 400) by (apply Z.mod_pos_bound; lia).
    assert (Ey : y' = yoe + era * 400) by (unfold yoe, era; pose proof (Z.div_mod y' 400); lia).
    assert (K : forall mp m2 y2, m2 = snd (next_month y m) -> y2 = fst (next_month y m) ->
        (if m2 <=? 2 then y2 - 1 else y2) = y' -> 1 <= m2 <= 12 ->
        mp = (if m <=? 2 then m + 9 else m - 3) -> mp + 1 = (if m2 <=? 2 then m2 + 9 else m2 - 3) ->
        mp_start (mp + 1) = mp_start mp + month_length y m ->
        days_from_civil y2 m2 1 = days_from_civil y m 1 + month_length y m).
    { intros mp m2 y2 -> -> E2 H2 E3 E4 E5.
      rewrite (days_alt y m 1 yoe era mp Hm Hy Ey E3).
      rewrite (days_alt _ _ 1 yoe era (mp + 1) H2 Hy (eq_trans E2 Ey) E4). lia. }
    assert (m = 1 \/ m = 3 \/ m = 4 \/ m = 5 \/ m = 6 \/ m = 7 \/ m = 8 \/ m = 9 \/ m = 10 \/ m = 11 \/ m = 12) as C by lia.
    clear Hne. repeat destruct C as [->|C]; try subst m;
      refine (K _ _ _ eq_refl eq_refl _ _ eq_refl _ _); try reflexivity; try (unfold y'; cbn; lia).
Qed.

Lemma days_day y m d : days_from_civil y m d = days_from_civil y m 1 + (d - 1).
Proof. unfold days_from_civil. lia. Qed.

(** *** days_from_civil is the day numbering. *)
Theorem days_numbering : day_numbering days_from_civil.
Proof.
  split; [reflexivity|]. intros y m d [Hm Hd]. unfold next_day.
  destruct (Z.eqb_spec d (month_length y m)) as [->|Hne].
  - pose proof (days_next_month y m Hm) as H. destruct (next_month y m) as [y' m']. cbn [fst snd] in H.
    rewrite (days_day y m (month_length y m)). lia.
  - rewrite (days_day y m (d + 1)), (days_day y m d). lia.
Qed.

(** Any other numbering agrees with it: walk from 1970-01-01. *)
Lemma next_day_valid y m d : valid_date y m d -> let '(y', m', d') := next_day y m d in valid_date y' m' d'.
Proof.
  intros [Hm Hd]. unfold next_day, next_month. destruct (Z.eqb_spec d (month_length y m)).
  - destruct (Z.eqb_spec m 12); unfold valid_date; [pose proof (length_bounds (y + 1) 1)|pose proof (length_bounds y (m + 1))]; lia.
  - unfold valid_date. lia.
Qed.

Theorem numbering_unique day : day_numbering day -> forall y m d, valid_date y m d -> day y m d = days_from_civil y m d.
Proof.
  intros [H0 H1].
  (* at day number z, the date is civil_from_days z *)
  assert (K : forall z, let '(y, m, d) := civil_from_days z in day y m d = z).
  { assert (Step : forall z y m d, civil_from_days z = (y, m, d) -> civil_from_days (z + 1) = next_day y m d).
    { intros z y m d Hz. destruct (civil_correct _ _ _ _ Hz) as [V E].
      pose proof (next_day_valid y m d V) as V'. destruct days_numbering as [_ N]. specialize (N y m d V).
      destruct (next_day y m d) as [[y' m'] d']. rewrite <- E, <- N. apply civil_of_days. exact V'. }
    assert (Up : forall n, let '(y, m, d) := civil_from_days (Z.of_nat n) in day y m d = Z.of_nat n).
    { induction n as [|n IH]; [exact H0|]. destruct (civil_from_days (Z.of_nat n)) as [[y m] d] eqn:E.
      pose proof (Step _ _ _ _ E) as S'. destruct (civil_correct _ _ _ _ E) as [V _]. specialize (H1 y m d V).
      replace (Z.of_nat (S n)) with (Z.of_nat n + 1) by lia. rewrite S'. destruct (next_day y m d) as [[y' m'] d']. lia. }
    assert (Down : forall n, let '(y, m, d) := civil_from_days (- Z.of_nat n) in day y m d = - Z.of_nat n).
    { induction n as [|n IH]; [exact H0|].
      destruct (civil_from_days (- Z.of_nat (S n))) as [[y m] d] eqn:E.
      pose proof (Step _ _ _ _ E) as S'. destruct (civil_correct _ _ _ _ E) as [V _]. specialize (H1 y m d V).
      replace (- Z.of_nat (S n) + 1) with (- Z.of_nat n) in S' by lia. rewrite S' in IH.
      destruct (next_day y m d) as [[y' m'] d']. lia. }
    intros z. destruct (Z_le_gt_dec 0 z).
    - specialize (Up (Z.to_nat z)). rewrite Z2Nat.id in Up by lia. exact Up.
    - specialize (Down (Z.to_nat (- z))). rewrite Z2Nat.id in Down by lia. replace (- - z) with z in Down by lia. exact Down. }
  intros y m d V. specialize (K (days_from_civil y m d)). rewrite (civil_of_days y m d V) in K. exact K.
Qed.

(** *** Months as numbers: mu = 12 * y + (m - 1); the day number of the first of a month. *)
Definition first_of (mu : Z) : Z := days_from_civil (mu / 12) (mu mod 12 + 1) 1.
Definition len_of (mu : Z) : Z := month_length (mu / 12) (mu mod 12 + 1).
Definition mu_of (y m : Z) : Z := 12 * y + (m - 1).

Lemma mu_month y m : 1 <= m <= 12 -> mu_of y m / 12 = y /\ mu_of y m mod 12 + 1 = m.
Proof.
  intros H. unfold mu_of. replace (12 * y + (m - 1)) with ((m - 1) + y * 12) by lia.
  rewrite Z.div_add, Z.mod_add by lia. rewrite Z.div_small, Z.mod_small by lia. lia.
Qed.

Lemma len_bounds mu : 28 <= len_of mu <= 31.
Proof. apply length_bounds. Qed.

Lemma first_next mu : first_of (mu + 1) = first_of mu + len_of mu.
Proof.
  unfold first_of, len_of. pose proof (Z.div_mod mu 12 ltac:(lia)) as D. pose proof (Z.mod_pos_bound mu 12 ltac:(lia)) as B.
  set (y := mu / 12) in *. set (m := mu mod 12 + 1).
  pose proof (days_next_month y m ltac:(lia)) as N. unfold next_month in N.
  destruct (Z.eqb_spec m 12) as [E|E]; cbn [fst snd] in N.
  - replace ((mu + 1) / 12) with (y + 1); [replace ((mu + 1) mod 12 + 1) with 1; [exact N|]|].
    + replace (mu + 1) with (0 + (y + 1) * 12) by lia. rewrite Z.mod_add by lia. reflexivity.
    + replace (mu + 1) with (0 + (y + 1) * 12) by lia. rewrite Z.div_add by lia. reflexivity.
  - replace ((mu + 1) / 12) with y; [replace ((mu + 1) mod 12 + 1) with (m + 1); [exact N|]|].
    + replace (mu + 1) with (m + y * 12) by lia. rewrite Z.mod_add, Z.mod_small by lia. reflexivity.
    + replace (mu + 1) with (m + y * 12) by lia. rewrite Z.div_add, Z.div_small by lia. reflexivity.
Qed.

Lemma first_gap mu n : 0 <= n -> first_of mu + 28 * n <= first_of (mu + n).
Proof.
  intros Hn. revert n Hn. apply (natlike_ind (fun n => first_of mu + 28 * n <= first_of (mu + n))).
  - rewrite !Z.add_0_r. lia.
  - intros n Hn IH. replace (mu + Z.succ n) with (mu + n + 1) by lia. rewrite first_next. pose proof (len_bounds (mu + n)). lia.
Qed.

(** *** Civil time of a timestamp. *)
Lemma to_civil t : exists y m d s,
  at_civil days_from_civil t y m d s /\
  ToCivilSecond t = CivilSecond y m d (s / 3600) ((s / 60) mod 60) (s mod 60).
Proof.
  unfold ToCivilSecond. destruct (civil_from_days (t / 86400)) as [[y m] d] eqn:E.
  destruct (civil_correct _ _ _ _ E) as [V D]. exists y, m, d, (t mod 86400). split; [|reflexivity].
  split; [exact V|]. split; [apply Z.mod_pos_bound; lia|]. rewrite D. apply Z.div_mod. lia.
Qed.

Lemma tod_split s : 0 <= s < 86400 -> (s / 3600) * 3600 + ((s / 60) mod 60) * 60 + s mod 60 = s.
Proof. intros H. Z.div_mod_to_equations. lia. Qed.

Lemma from_civil y m d s : 0 <= s < 86400 ->
  FromCivil y m d (s / 3600) ((s / 60) mod 60) (s mod 60) = 86400 * (first_of (mu_of y m) + (d - 1)) + s.
Proof.
  intros Hs. unfold FromCivil. pose proof (tod_split s Hs) as T.
  assert (E : days_from_civil (y + (m - 1) / 12) ((m - 1) mod 12 + 1) 1 = first_of (mu_of y m)).
  { unfold first_of, mu_of. replace (12 * y + (m - 1)) with ((m - 1) + y * 12) by lia.
    rewrite Z.div_add, Z.mod_add by lia. f_equal. lia. }
  rewrite E. lia.
Qed.

Lemma at_civil_first t y m d s : at_civil days_from_civil t y m d s -> t = 86400 * (first_of (mu_of y m) + (d - 1)) + s.
Proof.
  intros ([Hm Hd] & Hs & ->). destruct (mu_month y m Hm) as [E1 E2]. unfold first_of. rewrite E1, E2.
  rewrite (days_day y m d). lia.
Qed.

Theorem add_months t k y m d s : at_civil days_from_civil t y m d s ->
  AddMonthsToTimestampSec t k = 86400 * (first_of (mu_of y m + k) + (d - 1)) + s.
Proof.
  intros H. unfold AddMonthsToTimestampSec. destruct (to_civil t) as (y' & m' & d' & s' & H' & E). rewrite E. cbn [cs_year cs_month cs_day cs_hour cs_minute cs_second].
  assert (y = y' /\ m = m' /\ d = d' /\ s = s') as (<- & <- & <- & <-).
  { destruct H as (V & Hs & E1), H' as (V' & Hs' & E2).
    assert (days_from_civil y m d = days_from_civil y' m' d' /\ s = s') as [Ed Es] by lia.
    pose proof (civil_of_days _ _ _ V) as C. rewrite Ed, (civil_of_days _ _ _ V') in C. injection C as <- <- <-. auto. }
  rewrite from_civil by apply H. replace (mu_of y (m + k)) with (mu_of y m + k) by (unfold mu_of; lia). lia.
Qed.

(** A day inside month mu. *)
Lemma civil_in_month mu d s : 1 <= d <= len_of mu -> 0 <= s < 86400 ->
  at_civil days_from_civil (86400 * (first_of mu + (d - 1)) + s) (mu / 12) (mu mod 12 + 1) d s.
Proof.
  intros Hd Hs. pose proof (Z.mod_pos_bound mu 12 ltac:(lia)). split; [|split; [exact Hs|]].
  - unfold len_of in Hd. split; [lia|exact Hd].
  - unfold first_of. rewrite (days_day (mu / 12) (mu mod 12 + 1) d). reflexivity.
Qed.

Lemma mu_decompose mu : mu_of (mu / 12) (mu mod 12 + 1) = mu.
Proof. unfold mu_of. pose proof (Z.div_mod mu 12 ltac:(lia)). lia. Qed.
