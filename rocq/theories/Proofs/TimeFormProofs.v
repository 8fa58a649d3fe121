(** The language of the times that are accepted. *)
From Coq Require Import ZArith String Ascii Bool Lia.
From Coq Require Import List.
From Verif.Model Require Import TimeUtil Traders Convert TimeText.
From Verif.Spec Require Import TimeSpec TimeTextSpec TimeFormSpec.
From Verif.Proofs Require Import TimeProofs TimeTextProofs.
From Verif.Proofs Require LogProofs.
Import ListNotations.
Local Open Scope Z_scope.
Local Open Scope string_scope.

Notation app_assoc := LogProofs.append_assoc_s.
Notation app_nil := LogProofs.append_nil_s.

(** * Digits *)
Lemma digit_of_inv c n : digit_of c = Some n -> 0 <= n <= 9 /\ c = digit_char n.
Proof.
  unfold digit_of. destruct (_ && _)%bool eqn:E; [|discriminate]. intros H. injection H as <-.
  apply andb_prop in E. destruct E as [E1 E2]. apply Z.leb_le in E1, E2. split; [lia|].
  unfold digit_char. replace (48 + Z.to_nat (Z.of_nat (nat_of_ascii c) - 48))%nat with (nat_of_ascii c) by lia.
  symmetry. apply ascii_nat_embedding.
Qed.

Definition vfrom (v : Z) (ds : list Z) : Z := fold_left (fun v d => 10 * v + d) ds v.

Lemma vfrom_nonneg ds : Forall (fun d => 0 <= d <= 9) ds -> forall v, 0 <= v -> 0 <= vfrom v ds.
Proof.
  induction 1 as [|d ds Hd _ IH]; intros v Hv; [exact Hv|]. unfold vfrom. cbn [fold_left]. apply IH. lia.
Qed.

Definition stops (width : option nat) (ds : list Z) (rest : string) : Prop :=
  no_digit rest \/ width = Some (List.length ds).

Lemma parse_digits_inv s : forall width v c v' c' rest, parse_digits width s v c = (v', c', rest) ->
  exists ds, Forall (fun d => 0 <= d <= 9) ds /\ s = numeral ds ++ rest /\ v' = vfrom v ds
    /\ c' = (c + List.length ds)%nat /\ (forall w, width = Some w -> (List.length ds <= w)%nat) /\ stops width ds rest.
Proof.
  induction s as [|a s IH]; intros width v c v' c' rest H; cbn [parse_digits] in H.
  - injection H as <- <- <-. exists []. split; [constructor|]. split; [reflexivity|]. split; [reflexivity|].
    split; [cbn; lia|]. split; [intros; cbn; lia|]. left. exact Logic.I.
  - destruct (digit_of a) as [n|] eqn:D.
    + destruct width as [[|w]|].
      * injection H as <- <- <-. exists []. split; [constructor|]. split; [reflexivity|]. split; [reflexivity|].
        split; [cbn; lia|]. split; [intros; cbn; lia|]. right. reflexivity.
      * apply IH in H. destruct H as (ds & F & -> & -> & -> & W & St).
        destruct (digit_of_inv _ _ D) as [Hn ->]. exists (n :: ds).
        split; [constructor; assumption|]. split; [reflexivity|]. split; [unfold vfrom; cbn [fold_left]; f_equal; lia|].
        split; [cbn; lia|]. split.
        -- intros w' E. injection E as <-. specialize (W w eq_refl). cbn. lia.
        -- destruct St as [St|St]; [left; exact St|right]. cbn. congruence.
      * apply IH in H. destruct H as (ds & F & -> & -> & -> & W & St).
        destruct (digit_of_inv _ _ D) as [Hn ->]. exists (n :: ds).
        split; [constructor; assumption|]. split; [reflexivity|]. split; [unfold vfrom; cbn [fold_left]; f_equal; lia|].
        split; [cbn; lia|]. split; [discriminate|].
        destruct St as [St|St]; [left; exact St|discriminate].
    + assert (E : (v', c', rest) = (v, c, String a s)) by (destruct width as [[|w]|]; congruence).
      injection E as -> -> ->. exists []. split; [constructor|]. split; [reflexivity|]. split; [reflexivity|].
      split; [cbn; lia|]. split; [intros; cbn; lia|]. left. exact D.
Qed.

Lemma parse_digits_numeral ds : Forall (fun d => 0 <= d <= 9) ds -> forall width rest v c,
  (forall w, width = Some w -> (List.length ds <= w)%nat) -> stops width ds rest ->
  parse_digits width (numeral ds ++ rest) v c = (vfrom v ds, (c + List.length ds)%nat, rest).
Proof.
  induction 1 as [|d ds Hd _ IH]; intros width rest v c W St.
  - cbn [numeral append vfrom fold_left List.length]. rewrite Nat.add_0_r.
    destruct rest as [|a rest]; [reflexivity|]. cbn [parse_digits].
    destruct St as [St|St].
    + cbn in St. rewrite St. destruct width as [[|w]|]; reflexivity.
    + rewrite St. cbn [List.length]. destruct (digit_of a); reflexivity.
  - cbn [numeral append parse_digits]. rewrite digit_of_char by exact Hd.
    destruct width as [[|w]|].
    + specialize (W 0%nat eq_refl). cbn in W. lia.
    + rewrite IH.
      * cbn [List.length]. f_equal. f_equal; [|lia]. unfold vfrom. cbn [fold_left]. f_equal. lia.
      * intros w' E. injection E as <-. specialize (W (S w) eq_refl). cbn in W. lia.
      * destruct St as [St|St]; [left; exact St|right]. cbn in St. congruence.
    + rewrite IH.
      * cbn [List.length]. f_equal. f_equal; [|lia]. unfold vfrom. cbn [fold_left]. f_equal. lia.
      * discriminate.
      * destruct St as [St|St]; [left; exact St|discriminate].
Qed.

Lemma numeral_app a b : numeral (a ++ b)%list = numeral a ++ numeral b.
Proof. induction a as [|x a IH]; [reflexivity|]. cbn. rewrite IH. reflexivity. Qed.

Lemma numeral_head ds rest : digits ds -> exists n s, 0 <= n <= 9 /\ numeral ds ++ rest = String (digit_char n) s.
Proof.
  intros [Hn F]. destruct ds as [|n ds]; [congruence|]. inversion F; subst. cbn [numeral append].
  exists n, (numeral ds ++ rest). split; [assumption|reflexivity].
Qed.

(** * Fields *)
(** The short text ends because a non-digit follows, or has two digits. *)
Definition ends (s : string) (v : Z) (rest : string) : Prop :=
  no_digit rest \/ (two_digit_number v /\ s = two v).

Lemma two_numeral a b : 0 <= a <= 9 -> 0 <= b <= 9 ->
  numeral [a; b] = two (numeral_value [a; b]) /\ two_digit_number (numeral_value [a; b]).
Proof.
  intros Ha Hb. unfold numeral_value. cbn [fold_left].
  replace (10 * (10 * 0 + a) + b) with (b + a * 10) by lia. split; [|split; lia].
  unfold two. rewrite Z.div_add, Z.mod_add by lia. rewrite Z.div_small, Z.mod_small by lia. reflexivity.
Qed.

Lemma parse_year_inv s y rest : parse_int None None None s = Some (y, rest) ->
  exists ys, year_form ys y /\ s = ys ++ rest /\ no_digit rest.
Proof.
  unfold parse_int.
  assert (G : forall neg s1, (let '(v, n, rest) := parse_digits None s1 0 0 in
     if (n =? 0)%nat then None else if neg && (v =? 0)%Z then None
     else let v := if neg then - v else v in if (true && true)%bool then Some (v, rest) else None) = Some (y, rest) ->
     exists ds, digits ds /\ s1 = numeral ds ++ rest /\ y = (if neg then - numeral_value ds else numeral_value ds)
       /\ (neg = true -> y <> 0) /\ no_digit rest).
  { intros neg s1 H. destruct (parse_digits None s1 0 0) as [[v n] r] eqn:P.
    apply parse_digits_inv in P. destruct P as (ds & F & -> & -> & -> & _ & St).
    destruct (Nat.eqb_spec (0 + List.length ds) 0) as [|Hn]; [discriminate|].
    destruct (neg && _)%bool eqn:N; [discriminate|]. cbv zeta in H. cbn [andb] in H. injection H as Hy <-.
    exists ds. split; [split; [intros ->; cbn in Hn; lia|exact F]|]. split; [reflexivity|].
    split; [symmetry; exact Hy|]. split.
    - intros ->. cbn [andb] in N. apply Z.eqb_neq in N. lia.
    - destruct St as [St|St]; [exact St|discriminate]. }
  destruct s as [|c s].
  { cbn. discriminate. }
  destruct (Ascii.eqb_spec c "-") as [->|Hc]; intros H.
  - apply (G true) in H. destruct H as (ds & D & -> & Hy & Hz & Hr). exists ("-" ++ numeral ds).
    split; [|split; [reflexivity|exact Hr]]. exists ds. split; [exact D|]. right. auto.
  - apply (G false) in H. destruct H as (ds & D & -> & Hy & Hz & Hr). exists (numeral ds).
    split; [|split; [reflexivity|exact Hr]]. exists ds. split; [exact D|]. left. auto.
Qed.

Lemma parse_year_form ys y rest : year_form ys y -> no_digit rest ->
  parse_int None None None (ys ++ rest) = Some (y, rest).
Proof.
  intros (ds & D & H) Hr. unfold parse_int.
  assert (P : parse_digits None (numeral ds ++ rest) 0 0 = (numeral_value ds, List.length ds, rest)).
  { apply parse_digits_numeral; [apply D|discriminate|left; exact Hr]. }
  assert (L : (List.length ds =? 0)%nat = false).
  { apply Nat.eqb_neq. destruct D as [D _]. destruct ds; [congruence|discriminate]. }
  destruct H as [[-> ->]|(-> & -> & Hz)].
  - destruct (numeral_head ds rest D) as (n & s & Hn & E). rewrite E in *. rewrite digit_not_minus by exact Hn.
    rewrite P, L. reflexivity.
  - cbn [append]. rewrite Ascii.eqb_refl. rewrite P, L. cbn [andb].
    destruct (Z.eqb_spec (numeral_value ds) 0); [lia|reflexivity].
Qed.

Lemma parse_short_inv lo hi s v rest : 0 <= lo -> parse_int (Some 2%nat) (Some lo) (Some hi) s = Some (v, rest) ->
  exists vs, short_form vs v /\ s = vs ++ rest /\ lo <= v <= hi /\ ends vs v rest.
Proof.
  intros Hlo. unfold parse_int. destruct s as [|c s]; [cbn; discriminate|].
  destruct (Ascii.eqb_spec c "-") as [->|Hc]; intros H.
  - destruct (parse_digits (Some (pred 2)) s 0 0) as [[v1 n] r] eqn:P.
    apply parse_digits_inv in P. destruct P as (ds & F & -> & -> & -> & _ & St).
    destruct (_ =? 0)%nat; [discriminate|]. cbn [andb] in H.
    destruct (Z.eqb_spec (vfrom 0 ds) 0); [discriminate|]. cbv zeta in H.
    pose proof (vfrom_nonneg ds F 0 ltac:(lia)).
    destruct (Z.leb_spec lo (- vfrom 0 ds)); [lia|]. discriminate.
  - destruct (parse_digits (Some 2%nat) (String c s) 0 0) as [[v1 n] r] eqn:P.
    apply parse_digits_inv in P. destruct P as (ds & F & -> & -> & -> & W & St).
    destruct (Nat.eqb_spec (0 + List.length ds) 0) as [|Hn]; [discriminate|].
    cbn [andb] in H. cbv zeta in H.
    destruct (Z.leb_spec lo (vfrom 0 ds)), (Z.leb_spec (vfrom 0 ds) hi); try discriminate. injection H as <- <-.
    specialize (W 2%nat eq_refl).
    assert (D : digits ds) by (split; [intros ->; cbn in Hn; lia|exact F]).
    exists (numeral ds). split; [exists ds; repeat split; try assumption; apply D|].
    split; [reflexivity|]. split; [lia|]. destruct St as [St|St]; [left; exact St|right].
    injection St as St. destruct ds as [|a [|b [|x ds]]]; try discriminate.
    inversion F; subst. inversion H4; subst. destruct (two_numeral a b) as [E1 E2]; try assumption.
    split; [exact E2|exact E1].
Qed.

Lemma parse_short_form lo hi vs v rest : short_form vs v -> ends vs v rest -> lo <= v <= hi ->
  parse_int (Some 2%nat) (Some lo) (Some hi) (vs ++ rest) = Some (v, rest).
Proof.
  intros (ds & D & L & -> & ->) E B.
  assert (P : parse_digits (Some 2%nat) (numeral ds ++ rest) 0 0 = (numeral_value ds, List.length ds, rest)).
  { apply parse_digits_numeral; [apply D|intros w Hw; injection Hw as <-; exact L|].
    destruct E as [E|[_ E]]; [left; exact E|right].
    destruct ds as [|a [|b [|x ds]]]; try discriminate; reflexivity. }
  assert (N : (List.length ds =? 0)%nat = false).
  { apply Nat.eqb_neq. destruct D as [D _]. destruct ds; [congruence|discriminate]. }
  destruct (numeral_head ds rest D) as (n & s & Hn & Eh). unfold parse_int. rewrite Eh in *.
  rewrite digit_not_minus by exact Hn. rewrite P, N. cbn [andb].
  destruct (Z.leb_spec lo (numeral_value ds)), (Z.leb_spec (numeral_value ds) hi); try lia. reflexivity.
Qed.

Lemma append_length a b : String.length (a ++ b) = (String.length a + String.length b)%nat.
Proof. induction a as [|c a IH]; [reflexivity|]. cbn. rewrite IH. reflexivity. Qed.
Lemma numeral_length ds : String.length (numeral ds) = List.length ds.
Proof. induction ds as [|d ds IH]; [reflexivity|]. cbn. rewrite IH. reflexivity. Qed.

Lemma parse_two_inv hi s v rest : parse_two hi s = Some (v, rest) -> s = two v ++ rest /\ 0 <= v <= hi.
Proof.
  unfold parse_two. destruct (parse_int _ _ _ s) as [[v1 r]|] eqn:P; [|discriminate].
  apply parse_short_inv in P; [|lia]. destruct P as (vs & (ds & D & L & -> & ->) & -> & B & _).
  rewrite append_length, numeral_length.
  destruct (Nat.eqb_spec (List.length ds + String.length r - String.length r) 2) as [E|]; [|discriminate].
  intros H. injection H as <- <-. split; [|exact B]. f_equal.
  destruct ds as [|a [|b [|x ds]]]; cbn [List.length] in E, L; try lia.
  destruct D as [_ F]. inversion F; subst. inversion H2; subst. apply two_numeral; assumption.
Qed.

Lemma skip_colon_inv s : exists sep, separator sep /\ s = sep ++ skip_colon s.
Proof.
  destruct s as [|c s]; [exists ""; split; [now left|reflexivity]|].
  cbn [skip_colon]. destruct (Ascii.eqb_spec c ":") as [->|].
  - exists ":". split; [now right|reflexivity].
  - exists "". split; [now left|reflexivity].
Qed.

Lemma parse_offset_inv s off rest : parse_offset s = Some (off, rest) ->
  exists zone, time_zone zone off /\ s = zone ++ rest.
Proof.
  unfold parse_offset. destruct s as [|c s]; [discriminate|].
  assert (G : forall east : bool, c = (if east then "+"%char else "-"%char) ->
    match parse_two 23 s with
    | None => None
    | Some (h, s1) =>
      let '(m, sec, rest) :=
        match parse_two 59 (skip_colon s1) with
        | None => (0, 0, s1)
        | Some (m, s2) =>
          match parse_two 59 (skip_colon s2) with
          | None => (m, 0, s2)
          | Some (sec, s3) => (m, sec, s3)
          end
        end in
      let off := ((h * 60 + m) * 60 + sec)%Z in
      Some ((if Ascii.eqb c "-" then - off else off)%Z, rest)
    end = Some (off, rest) -> exists zone, time_zone zone off /\ String c s = zone ++ rest).
  { intros east Hc H. destruct (parse_two 23 s) as [[h s1]|] eqn:P1; [|discriminate].
    apply parse_two_inv in P1. destruct P1 as [-> B1].
    assert (Sg : forall x r, String c (two h ++ r) = sign_text east ++ two h ++ r /\ (if Ascii.eqb c "-" then - x else x) = signed east x).
    { intros x r. rewrite Hc. destruct east; split; reflexivity. }
    destruct (parse_two 59 (skip_colon s1)) as [[m s2]|] eqn:P2.
    2: { injection H as <- <-. exists (sign_text east ++ two h).
         destruct (Sg ((h * 60 + 0) * 60 + 0) s1) as [S1 S2]. rewrite S1, S2. split; [|rewrite app_assoc; reflexivity].
         replace ((h * 60 + 0) * 60 + 0) with (h * 3600) by lia. constructor. exact B1. }
    apply parse_two_inv in P2. destruct P2 as [P2 B2].
    destruct (skip_colon_inv s1) as (sep & Hs & E). rewrite P2 in E. rewrite E in *.
    destruct (parse_two 59 (skip_colon s2)) as [[sec s3]|] eqn:P3.
    2: { injection H as <- <-. exists (sign_text east ++ two h ++ sep ++ two m).
         destruct (Sg ((h * 60 + m) * 60 + 0) (sep ++ two m ++ s2)) as [S1 S2]. rewrite S1, S2.
         split; [|rewrite !app_assoc; reflexivity].
         replace ((h * 60 + m) * 60 + 0) with (h * 3600 + m * 60) by lia. constructor; assumption. }
    apply parse_two_inv in P3. destruct P3 as [P3 B3].
    destruct (skip_colon_inv s2) as (sep2 & Hs2 & E2). rewrite P3 in E2. rewrite E2 in *.
    injection H as <- <-. exists (sign_text east ++ two h ++ sep ++ two m ++ sep2 ++ two sec).
    destruct (Sg ((h * 60 + m) * 60 + sec) (sep ++ two m ++ sep2 ++ two sec ++ s3)) as [S1 S2]. rewrite S1, S2.
    split; [|rewrite !app_assoc; reflexivity].
    replace ((h * 60 + m) * 60 + sec) with (h * 3600 + m * 60 + sec) by lia. constructor; assumption. }
  destruct (Ascii.eqb_spec c "+") as [E|_]; cbn [orb].
  { subst c. intros H. exact (G true eq_refl H). }
  destruct (Ascii.eqb_spec c "-") as [E|_].
  { subst c. intros H. exact (G false eq_refl H). }
  destruct (Ascii.eqb_spec c "Z") as [->|_]; cbn [orb].
  { intros H. injection H as <- <-. exists "Z". split; [apply zone_utc; now left|reflexivity]. }
  destruct (Ascii.eqb_spec c "z") as [->|_].
  { intros H. injection H as <- <-. exists "z". split; [apply zone_utc; now right|reflexivity]. }
  discriminate.
Qed.

(** * White space *)
Lemma is_space_inv c : is_space c = true -> exists n, In n [32; 9; 10; 11; 12; 13]%nat /\ c = ascii_of_nat n.
Proof.
  unfold is_space. intros H. exists (nat_of_ascii c). split; [|symmetry; apply ascii_nat_embedding].
  apply orb_prop in H. destruct H as [H|H].
  - apply Nat.eqb_eq in H. rewrite H. now left.
  - apply andb_prop in H. destruct H as [H1 H2]. apply Nat.leb_le in H1, H2. cbn. lia.
Qed.

Lemma is_space_blank n : In n [32; 9; 10; 11; 12; 13]%nat -> is_space (ascii_of_nat n) = true.
Proof. cbn [In]. intros H. repeat (destruct H as [<-|H]; [reflexivity|]). contradiction. Qed.

Lemma skip_spaces_inv s : exists b, blank b /\ s = b ++ skip_spaces s.
Proof.
  induction s as [|c s (b & Hb & E)]; [exists ""; split; [constructor|reflexivity]|].
  cbn [skip_spaces]. destruct (is_space c) eqn:Sp.
  - destruct (is_space_inv c Sp) as (n & Hn & ->). exists (String (ascii_of_nat n) b).
    split; [constructor; assumption|]. cbn [append]. rewrite <- E. reflexivity.
  - exists "". split; [constructor|reflexivity].
Qed.

Lemma skip_blanks b x : blank b -> skip_spaces (b ++ x) = skip_spaces x.
Proof.
  induction 1 as [|n s Hn _ IH]; [reflexivity|]. cbn [append skip_spaces]. rewrite is_space_blank by exact Hn. exact IH.
Qed.

Lemma skip_only b : blank b -> skip_spaces b = "".
Proof. intros H. rewrite <- (app_nil b), skip_blanks by exact H. reflexivity. Qed.

Lemma skip_end s : String.eqb (skip_spaces s) "" = true -> blank s.
Proof.
  intros H. apply String.eqb_eq in H. destruct (skip_spaces_inv s) as (b & Hb & E). rewrite H, app_nil in E.
  rewrite E. exact Hb.
Qed.

(** * Words *)
Lemma prefix_inv w : forall s, String.prefix w s = true -> exists r, s = w ++ r.
Proof.
  induction w as [|c w IH]; intros s H; [exists s; reflexivity|]. destruct s as [|a s]; [discriminate|].
  cbn [String.prefix] in H. destruct (ascii_dec c a) as [<-|]; [|discriminate].
  destruct (IH s H) as (r & ->). exists r. reflexivity.
Qed.

Lemma substring_rest a b : substring (String.length a) (String.length (a ++ b)) (a ++ b) = b.
Proof.
  assert (G : forall n a b, (String.length (a ++ b) <= n)%nat -> substring (String.length a) n (a ++ b) = b).
  { clear. intros n a. revert n. induction a as [|c a IH]; intros n b H.
    - cbn [String.length append] in *. revert n H. induction b as [|c b IH]; intros n H; [destruct n; reflexivity|].
      destruct n as [|n]; [cbn in H; lia|]. cbn [substring]. rewrite IH; [reflexivity|cbn in H; lia].
    - cbn [String.length append substring] in *. apply IH. lia. }
  apply G. lia.
Qed.

(** * Dates and clocks *)
Definition day_ends (date : string) (d : Z) (rest : string) : Prop :=
  no_digit rest \/ exists pre, date = pre ++ "-" ++ two d.

Lemma parse_date_inv is p s q rest : parse_items (fmt_ymd ++ is) p s = Some (q, rest) ->
  exists date y m d r, date_form date y m d /\ 1 <= m <= 12 /\ 1 <= d <= 31 /\ s = date ++ r /\ day_ends date d r
    /\ parse_items is (ParsedTime y m d (pt_hour p) (pt_minute p) (pt_second p) (pt_offset p)) r = Some (q, rest).
Proof.
  destruct p as [y0 m0 d0 hh mm ss off]. unfold fmt_ymd.
  cbn [List.app parse_items parse_item pt_hour pt_minute pt_second pt_offset].
  destruct (parse_int None None None s) as [[y r1]|] eqn:P1; [|discriminate]. cbn [option_map fst snd].
  apply parse_year_inv in P1. destruct P1 as (ys & Fy & -> & _).
  destruct r1 as [|c r1]; [discriminate|]. cbn [parse_item]. destruct (Ascii.eqb_spec "-" c) as [<-|]; [|discriminate].
  cbn [parse_item]. destruct (parse_int _ _ _ r1) as [[m r2]|] eqn:P2; [|discriminate]. cbn [option_map fst snd].
  apply parse_short_inv in P2; [|lia]. destruct P2 as (ms & Fm & -> & Bm & _).
  destruct r2 as [|c r2]; [discriminate|]. cbn [parse_item]. destruct (Ascii.eqb_spec "-" c) as [<-|]; [|discriminate].
  cbn [parse_item]. destruct (parse_int _ _ _ r2) as [[d r3]|] eqn:P3; [|discriminate]. cbn [option_map fst snd].
  apply parse_short_inv in P3; [|lia]. destruct P3 as (ds & Fd & -> & Bd & En).
  intros H. exists (ys ++ "-" ++ ms ++ "-" ++ ds), y, m, d, r3.
  split; [exists ys, ms, ds; auto|]. split; [exact Bm|]. split; [exact Bd|].
  split; [rewrite !app_assoc; reflexivity|]. split; [|exact H].
  destruct En as [En|[_ En]]; [left; exact En|right]. exists (ys ++ "-" ++ ms). rewrite En, !app_assoc. reflexivity.
Qed.

Lemma tail_eq a b a2 b2 : String.length b = String.length b2 -> a ++ b = a2 ++ b2 -> b = b2.
Proof.
  revert a2. induction a as [|x a IH]; intros a2 L E.
  - destruct a2 as [|y a2]; [exact E|]. exfalso. cbn in E. rewrite E in L. cbn in L. rewrite append_length in L. lia.
  - destruct a2 as [|y a2]; [exfalso; cbn in E; rewrite <- E in L; cbn in L; rewrite append_length in L; lia|].
    cbn in E. injection E as _ E. apply (IH a2 L E).
Qed.

(** If a date ends with the two digits of its day then these are all digits of the day. *)
Lemma day_two ys ms ds d pre : short_form ds d -> ys ++ "-" ++ ms ++ "-" ++ ds = pre ++ "-" ++ two d -> ds = two d.
Proof.
  intros (l & [Hne F] & L & -> & ->) E. destruct l as [|a [|b [|x l]]]; [congruence| |..].
  3: { cbn in L. lia. }
  - exfalso. inversion F; subst.
    assert (T : "-" ++ numeral [a] = two (numeral_value [a])).
    { apply (tail_eq (ys ++ "-" ++ ms) _ (pre ++ "-")); [reflexivity|]. rewrite !app_assoc. exact E. }
    unfold numeral_value in T. cbn [fold_left numeral append] in T. unfold two in T.
    replace (10 * 0 + a) with a in T by lia. rewrite Z.div_small in T by lia. injection T as T _. discriminate.
  - inversion F; subst. inversion H2; subst. apply two_numeral; assumption.
Qed.

Lemma parse_date_form is p date y m d rest : date_form date y m d -> 1 <= m <= 12 -> 1 <= d <= 31 ->
  day_ends date d rest ->
  parse_items (fmt_ymd ++ is) p (date ++ rest)
  = parse_items is (ParsedTime y m d (pt_hour p) (pt_minute p) (pt_second p) (pt_offset p)) rest.
Proof.
  intros (ys & ms & ds & Fy & Fm & Fd & ->) Hm Hd En. destruct p as [y0 m0 d0 hh mm ss off]. unfold fmt_ymd.
  assert (En' : ends ds d rest).
  { destruct En as [En|[pre En]]; [left; exact En|right]. split; [split; lia|]. eapply day_two; eassumption. }
  rewrite !app_assoc. cbn [List.app parse_items parse_item pt_hour pt_minute pt_second pt_offset].
  rewrite (parse_year_form ys y) by (exact Fy || reflexivity). cbn [option_map fst snd append parse_item].
  rewrite Ascii.eqb_refl. cbn [parse_item]. rewrite (parse_short_form 1 12 ms m) by (try exact Fm; try exact Hm; left; reflexivity).
  cbn [option_map fst snd append parse_item].
  rewrite Ascii.eqb_refl. cbn [parse_item]. rewrite (parse_short_form 1 31 ds d) by assumption. reflexivity.
Qed.

Lemma parse_clock_inv is p s q rest : parse_items (fmt_hms ++ is) p s = Some (q, rest) ->
  exists clock hh mm ss r, clock_form clock hh mm ss /\ valid_clock hh mm ss /\ s = clock ++ r
    /\ parse_items is (ParsedTime (pt_year p) (pt_month p) (pt_day p) hh mm ss (pt_offset p)) r = Some (q, rest).
Proof.
  destruct p as [y0 m0 d0 hh0 mm0 ss0 off]. unfold fmt_hms.
  cbn [List.app parse_items parse_item pt_year pt_month pt_day pt_offset].
  destruct (parse_int _ _ _ s) as [[y r1]|] eqn:P1; [|discriminate]. cbn [option_map fst snd].
  apply parse_short_inv in P1; [|lia]. destruct P1 as (hs & Fh & -> & Bh & _).
  destruct r1 as [|c r1]; [discriminate|]. cbn [parse_item]. destruct (Ascii.eqb_spec ":" c) as [<-|]; [|discriminate].
  cbn [parse_item]. destruct (parse_int _ _ _ r1) as [[m r2]|] eqn:P2; [|discriminate]. cbn [option_map fst snd].
  apply parse_short_inv in P2; [|lia]. destruct P2 as (ms & Fm & -> & Bm & _).
  destruct r2 as [|c r2]; [discriminate|]. cbn [parse_item]. destruct (Ascii.eqb_spec ":" c) as [<-|]; [|discriminate].
  cbn [parse_item]. destruct (parse_int _ _ _ r2) as [[d r3]|] eqn:P3; [|discriminate]. cbn [option_map fst snd].
  apply parse_short_inv in P3; [|lia]. destruct P3 as (ds & Fd & -> & Bd & En).
  intros H. exists (hs ++ ":" ++ ms ++ ":" ++ ds), y, m, d, r3.
  split; [exists hs, ms, ds; auto|]. split; [split; [|split]; lia|].
  split; [rewrite !app_assoc; reflexivity|exact H].
Qed.

Lemma parse_clock_form is p clock hh mm ss rest : clock_form clock hh mm ss -> valid_clock hh mm ss -> no_digit rest ->
  parse_items (fmt_hms ++ is) p (clock ++ rest)
  = parse_items is (ParsedTime (pt_year p) (pt_month p) (pt_day p) hh mm ss (pt_offset p)) rest.
Proof.
  intros (hs & ms & ss' & Fh & Fm & Fs & ->) (Hh & Hm & Hs) Hr. destruct p as [y0 m0 d0 hh0 mm0 ss0 off]. unfold fmt_hms.
  rewrite !app_assoc. cbn [List.app parse_items parse_item pt_year pt_month pt_day pt_offset].
  rewrite (parse_short_form 0 23 hs hh) by (try assumption; left; reflexivity). cbn [option_map fst snd append parse_item].
  rewrite Ascii.eqb_refl. cbn [parse_item]. rewrite (parse_short_form 0 59 ms mm) by (try assumption; left; reflexivity).
  cbn [option_map fst snd append parse_item].
  rewrite Ascii.eqb_refl. cbn [parse_item]. rewrite (parse_short_form 0 60 ss' ss) by (try assumption; left; assumption). reflexivity.
Qed.

(** * Heads of texts *)
Lemma date_head date y m d rest : date_form date y m d ->
  exists c s, date ++ rest = String c s /\ is_space c = false /\ Ascii.eqb "i" c = false.
Proof.
  intros (ys & ms & ds & (l & D & [[-> _]|[-> _]]) & _ & _ & ->).
  - rewrite !app_assoc. destruct (numeral_head l ("-" ++ ms ++ "-" ++ ds ++ rest) D) as (n & s & Hn & E).
    exists (digit_char n), s. split; [exact E|]. split; [apply digit_not_space, Hn|].
    apply (digit_below (fun n => Ascii.eqb "i" (digit_char n) = false)); try reflexivity; exact Hn.
  - eexists _, _. split; [cbn [append]; reflexivity|]. split; reflexivity.
Qed.

Lemma clock_head clock hh mm ss rest : clock_form clock hh mm ss ->
  exists n s, 0 <= n <= 9 /\ clock ++ rest = String (digit_char n) s.
Proof.
  intros (hs & ms & ss' & (l & D & _ & -> & _) & _ & _ & ->). rewrite !app_assoc. apply numeral_head. exact D.
Qed.

Lemma zone_head zone ahead rest : time_zone zone ahead ->
  exists c s, zone ++ rest = String c s /\ In c ["+"; "-"; "Z"; "z"]%char.
Proof.
  intros [s [-> | ->]|[] hh Hh|[] hh s1 mm Hh H1 Hm|[] hh s1 mm s2 ss Hh H1 Hm H2 Hs];
    eexists _, _; (split; [cbn [append sign_text]; reflexivity|]); cbn; tauto.
Qed.

Lemma blank_head b rest : blank b -> b = "" \/ exists c s, b ++ rest = String c s /\ is_space c = true.
Proof.
  intros [|n s Hn Hb]; [now left|right]. eexists _, _. split; [cbn [append]; reflexivity|]. apply is_space_blank, Hn.
Qed.

Lemma space_facts c : is_space c = true ->
  digit_of c = None /\ Ascii.eqb c "T" = false /\ Ascii.eqb c "t" = false /\ Ascii.eqb c ":" = false /\ Ascii.eqb c "-" = false.
Proof.
  intros H. destruct (is_space_inv c H) as (n & Hn & ->). cbn [In] in Hn.
  repeat (destruct Hn as [<-|Hn]; [repeat split; reflexivity|]). contradiction.
Qed.

Lemma blank_no_digit b : blank b -> no_digit b.
Proof.
  intros H. destruct (blank_head b "" H) as [->|(c & s & E & Sp)]; [exact Logic.I|]. rewrite app_nil in E. rewrite E.
  apply (space_facts c Sp).
Qed.

(** A zone is read up to white space. *)
Lemma two_no_blank hi b : blank b -> parse_two hi (skip_colon b) = None.
Proof.
  intros H. destruct (blank_head b "" H) as [->|(c & s & E & Sp)]; [reflexivity|]. rewrite app_nil in E. rewrite E.
  cbn [skip_colon]. destruct (space_facts c Sp) as (D & _ & _ & Cc & Cm). rewrite Cc.
  unfold parse_two, parse_int. rewrite Cm. cbn [parse_digits]. rewrite D. reflexivity.
Qed.

Lemma parse_zone_blank zone ahead b : time_zone zone ahead -> blank b -> parse_offset (zone ++ b) = Some (ahead, b).
Proof.
  intros [s Hs|east hh Hh|east hh s1 mm Hh H1 Hm|east hh s1 mm s2 ss Hh H1 Hm H2 Hs] Hb.
  - destruct Hs as [-> | ->]; reflexivity.
  - rewrite !app_assoc. rewrite (parse_signed east (two hh ++ b) hh b 0 0 b).
    + f_equal. f_equal. destruct east; cbn [signed]; lia.
    + apply parse_below; lia.
    + rewrite two_no_blank by exact Hb. reflexivity.
  - rewrite !app_assoc. rewrite (parse_signed east (two hh ++ s1 ++ two mm ++ b) hh (s1 ++ two mm ++ b) mm 0 b).
    + f_equal. f_equal. destruct east; cbn [signed]; lia.
    + apply parse_below; lia.
    + rewrite skip_separator by (auto; split; lia). rewrite parse_below by lia. rewrite two_no_blank by exact Hb. reflexivity.
  - rewrite !app_assoc.
    rewrite (parse_signed east (two hh ++ s1 ++ two mm ++ s2 ++ two ss ++ b) hh (s1 ++ two mm ++ s2 ++ two ss ++ b) mm ss b).
    + reflexivity.
    + apply parse_below; lia.
    + rewrite skip_separator by (auto; split; lia). rewrite parse_below by lia.
      rewrite skip_separator by (auto; split; lia). rewrite parse_below by lia. reflexivity.
Qed.
