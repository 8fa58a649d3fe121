(** Proofs about the delimited protocol buffer files. *)
From Coq Require Import ZArith Bool List Lia.
From Verif.Model Require Import Proto.
From Verif.Spec Require Import ProtoSpec.
Import ListNotations.
Local Open Scope Z_scope.

(** * Varints *)

Lemma write_varint_length fuel v : (1 <= fuel)%nat -> (1 <= length (write_varint fuel v) <= fuel)%nat.
Proof.
  revert v; induction fuel as [|fuel IH]; intros v Hf; [lia|].
  cbn. destruct (v <? 128); cbn; [lia|].
  destruct fuel as [|fuel]; [cbn; lia|]. specialize (IH (v / 128)). lia.
Qed.

Lemma read_write_varint fuel s acc v rest :
  (1 <= fuel)%nat -> 0 <= s -> 0 <= v < 2 ^ (7 * Z.of_nat fuel) ->
  read_varint_loop fuel s acc (write_varint fuel v ++ rest)
  = Some ((acc + v * 2 ^ s) mod 2 ^ 64, rest).
Proof.
  revert s acc v; induction fuel as [|fuel IH]; intros s acc v Hf Hs Hv; [lia|].
  cbn [write_varint]. destruct (Z.ltb_spec v 128) as [H|H].
  - cbn [app read_varint_loop]. destruct (Z.ltb_spec v 128); [|lia].
    rewrite (Z.mod_small v 128) by lia. reflexivity.
  - cbn [app read_varint_loop].
    pose proof (Z.mod_pos_bound v 128 ltac:(lia)).
    destruct (Z.ltb_spec (v mod 128 + 128) 128); [lia|].
    rewrite IH.
    + f_equal. f_equal.
      replace (v mod 128 + 128) with (v mod 128 + 1 * 128) by lia.
      rewrite Z_mod_plus_full, Z.mod_mod by lia.
      rewrite Zplus_mod_idemp_l. f_equal.
      rewrite Z.pow_add_r by lia. change (2 ^ 7) with 128.
      rewrite (Z.div_mod v 128) at 3 by lia. ring.
    + destruct fuel; [|lia]. change (2 ^ (7 * Z.of_nat 1)) with 128 in Hv. lia.
    + lia.
    + split; [apply Z.div_pos; lia|].
      apply Z.div_lt_upper_bound; [lia|].
      replace (128 * 2 ^ (7 * Z.of_nat fuel)) with (2 ^ (7 * Z.of_nat (S fuel))); [lia|].
      rewrite Nat2Z.inj_succ. replace (7 * Z.succ (Z.of_nat fuel)) with (7 + 7 * Z.of_nat fuel) by lia.
      rewrite Z.pow_add_r by lia. reflexivity.
Qed.

Lemma read_write_uint64 v rest :
  0 <= v < 2 ^ 64 -> read_varint (write_uint64 v ++ rest) = Some (v, rest).
Proof.
  intros Hv. unfold read_varint, write_uint64.
  rewrite read_write_varint; [|lia|lia|].
  - rewrite Z.pow_0_r, Z.mul_1_r, Z.add_0_l, Z.mod_small by lia. reflexivity.
  - assert (2 ^ 64 < 2 ^ (7 * Z.of_nat 10)) by (vm_compute; reflexivity). lia.
Qed.

Lemma read_short_varint fuel s acc v k :
  (k < length (write_varint fuel v))%nat ->
  read_varint_loop fuel s acc (firstn k (write_varint fuel v)) = None.
Proof.
  revert s acc v k; induction fuel as [|fuel IH]; intros s acc v k Hk; [reflexivity|].
  cbn [write_varint] in *. destruct (Z.ltb_spec v 128) as [H|H].
  - cbn in Hk. replace k with O by lia. reflexivity.
  - destruct k as [|k]; [reflexivity|].
    cbn [firstn read_varint_loop]. pose proof (Z.mod_pos_bound v 128 ltac:(lia)).
    destruct (Z.ltb_spec (v mod 128 + 128) 128); [lia|].
    apply IH. cbn in Hk. lia.
Qed.

Lemma read_varint_shorter fuel s acc b v rest :
  read_varint_loop fuel s acc b = Some (v, rest) -> (length rest < length b)%nat.
Proof.
  revert s acc b; induction fuel as [|fuel IH]; intros s acc b H; [discriminate|].
  destruct b as [|x b]; [discriminate|]. cbn in H.
  destruct (x <? 128).
  - injection H as _ <-. cbn; lia.
  - apply IH in H. cbn; lia.
Qed.

Lemma int64_roundtrip v : is_int64 v -> to_int64 (v mod 2 ^ 64) = v.
Proof.
  unfold is_int64, to_int64. intros H.
  assert (E : 2 ^ 64 = 2 * 2 ^ 63) by reflexivity.
  destruct (Z.le_gt_cases 0 v).
  - rewrite Z.mod_small by lia. destruct (Z.ltb_spec v (2 ^ 63)); lia.
  - assert (M : v mod 2 ^ 64 = v + 2 ^ 64).
    { rewrite <- (Z_mod_plus_full v 1), Z.mod_small; lia. }
    rewrite M.
    destruct (Z.ltb_spec (v + 2 ^ 64) (2 ^ 63)); lia.
Qed.

Lemma fixed32_roundtrip v rest :
  is_bits32 v -> read_fixed32 (write_fixed32 v ++ rest) = Some (v, rest).
Proof.
  unfold is_bits32. intros H. cbn [write_fixed32 app read_fixed32]. f_equal. f_equal.
  assert (E : 2 ^ 32 = 256 * 256 * 256 * 256) by reflexivity.
  assert (H1 : v / 65536 = v / 256 / 256) by (rewrite Z.div_div by lia; reflexivity).
  assert (H2 : v / 16777216 = v / 256 / 256 / 256) by (rewrite !Z.div_div by lia; reflexivity).
  rewrite H1, H2.
  rewrite (Z.mod_small (v / 256 / 256 / 256) 256).
  2:{ rewrite !Z.div_div by lia. split; [apply Z.div_pos; lia|apply Z.div_lt_upper_bound; lia]. }
  pose proof (Z.div_mod v 256 ltac:(lia)).
  pose proof (Z.div_mod (v / 256) 256 ltac:(lia)).
  pose proof (Z.div_mod (v / 256 / 256) 256 ltac:(lia)). lia.
Qed.

(** * Fields *)

Lemma read_int64_field field v rest :
  0 < field < 1000 -> is_int64 v ->
  read_field (write_int64_field field (Some v) ++ rest)
  = Some (field, WVarint (v mod 2 ^ 64), rest).
Proof.
  intros Hf Hv. unfold write_int64_field, write_opt, write_tag, write_int64, read_field, WT_VARINT.
  rewrite <- app_assoc, read_write_uint64 by (assert (8001 < 2 ^ 64) by reflexivity; lia).
  replace (field * 8 + 0) with (0 + field * 8) by lia.
  rewrite Z_div_plus_full, Z_mod_plus_full by lia.
  cbn [Z.add]. change (0 / 8) with 0. change (0 mod 8) with 0. rewrite Z.add_0_l.
  destruct (Z.eqb_spec field 0); [lia|]. cbn [Z.eqb].
  rewrite read_write_uint64; [reflexivity|]. apply Z.mod_pos_bound. reflexivity.
Qed.

Lemma read_float_field field v rest :
  0 < field < 1000 -> is_bits32 v ->
  read_field (write_float_field field (Some v) ++ rest) = Some (field, WFixed32 v, rest).
Proof.
  intros Hf Hv. unfold write_float_field, write_opt, write_tag, read_field, WT_FIXED32, WT_VARINT.
  rewrite <- app_assoc, read_write_uint64 by (assert (8001 < 2 ^ 64) by reflexivity; lia).
  replace (field * 8 + 5) with (5 + field * 8) by lia.
  rewrite Z_div_plus_full, Z_mod_plus_full by lia.
  change (5 / 8) with 0. change (5 mod 8) with 5. rewrite Z.add_0_l.
  destruct (Z.eqb_spec field 0); [lia|]. cbn [Z.eqb Pos.eqb].
  rewrite fixed32_roundtrip by exact Hv. reflexivity.
Qed.

Section Merge.
  Variable T : message_type.

  (** Parsing the fields of [b] turns [m] into [m'], whatever follows. *)
  Definition fields (m : msg T) (b : bytes) (m' : msg T) : Prop :=
    forall fuel rest, (length b + length rest <= fuel)%nat ->
    exists fuel', (length rest <= fuel')%nat
                  /\ parse_fields T fuel m (b ++ rest) = parse_fields T fuel' m' rest.

  Lemma fields_nil m : fields m [] m.
  Proof. intros fuel rest H. exists fuel. split; [exact H|reflexivity]. Qed.

  Lemma fields_app m1 m2 m3 a b : fields m1 a m2 -> fields m2 b m3 -> fields m1 (a ++ b) m3.
  Proof.
    intros H1 H2 fuel rest H. rewrite app_length in H.
    destruct (H1 fuel (b ++ rest)) as (f1 & L1 & E1); [rewrite app_length; lia|].
    rewrite app_length in L1.
    destruct (H2 f1 rest) as (f2 & L2 & E2); [lia|].
    exists f2. split; [exact L2|]. rewrite <- app_assoc. congruence.
  Qed.

  Lemma fields_one m m' b field v :
    (forall rest, read_field (b ++ rest) = Some (field, v, rest)) -> b <> [] ->
    msg_merge T m field v = Some m' -> fields m b m'.
  Proof.
    intros Hr Hb Hm fuel rest H. destruct b as [|x b]; [congruence|].
    cbn [length] in H. destruct fuel as [|fuel]; [lia|].
    exists fuel. split; [lia|].
    change ((x :: b) ++ rest) with (x :: (b ++ rest)). cbn [parse_fields].
    change (x :: (b ++ rest)) with ((x :: b) ++ rest). rewrite Hr, Hm. reflexivity.
  Qed.

  Lemma fields_parse m m' b : fields m b m' -> parse_fields T (length b) m b = Some m'.
  Proof.
    intros H. destruct (H (length b) []) as (f & _ & E); [cbn; lia|].
    rewrite app_nil_r in E. rewrite E. destruct f; reflexivity.
  Qed.

  Lemma fields_int64 field x m m' :
    0 < field < 1000 -> if_present is_int64 x ->
    (forall v, x = Some v -> msg_merge T m field (WVarint (v mod 2 ^ 64)) = Some m') ->
    (x = None -> m' = m) ->
    fields m (write_int64_field field x) m'.
  Proof.
    intros Hf Hx H1 H2. destruct x as [v|].
    - eapply fields_one; [| |apply H1; reflexivity].
      { intros rest. apply read_int64_field; assumption. }
      unfold write_int64_field, write_opt, write_tag, write_uint64.
      intros E. apply app_eq_nil in E as [E _].
      pose proof (write_varint_length 10 (field * 8 + WT_VARINT) ltac:(lia)) as L.
      rewrite E in L. cbn in L. lia.
    - rewrite H2 by reflexivity. apply fields_nil.
  Qed.

  Lemma fields_float field x m m' :
    0 < field < 1000 -> if_present is_bits32 x ->
    (forall v, x = Some v -> msg_merge T m field (WFixed32 v) = Some m') ->
    (x = None -> m' = m) ->
    fields m (write_float_field field x) m'.
  Proof.
    intros Hf Hx H1 H2. destruct x as [v|].
    - eapply fields_one; [| |apply H1; reflexivity].
      { intros rest. apply read_float_field; assumption. }
      unfold write_float_field, write_opt, write_tag, write_uint64.
      intros E. apply app_eq_nil in E as [E _].
      pose proof (write_varint_length 10 (field * 8 + WT_FIXED32) ltac:(lia)) as L.
      rewrite E in L. cbn in L. lia.
    - rewrite H2 by reflexivity. apply fields_nil.
  Qed.
End Merge.

(** * The three messages *)

Lemma write_fixed32_length v : length (write_fixed32 v) = 4%nat.
Proof. reflexivity. Qed.

Lemma int64_field_length field x : 0 < field < 16 ->
  (length (write_int64_field field x) <= 11)%nat.
Proof.
  intros Hf. destruct x as [v|]; cbn [write_int64_field write_opt]; [|cbn; lia].
  rewrite app_length. unfold write_int64, write_uint64 at 1.
  pose proof (write_varint_length 10 (v mod 2 ^ 64) ltac:(lia)).
  assert (length (write_tag field WT_VARINT) = 1%nat).
  { unfold write_tag, write_uint64, WT_VARINT. cbn [write_varint].
    destruct (Z.ltb_spec (field * 8 + 0) 128); [reflexivity|lia]. }
  unfold write_uint64 in *. lia.
Qed.

Lemma float_tag_length field : 0 < field < 15 -> length (write_tag field WT_FIXED32) = 1%nat.
Proof.
  intros Hf. unfold write_tag, write_uint64, WT_FIXED32. cbn [write_varint].
  destruct (Z.ltb_spec (field * 8 + 5) 128); [reflexivity|lia].
Qed.

Lemma float_field_length field x : 0 < field < 15 ->
  (length (write_float_field field x) <= 5)%nat.
Proof.
  intros Hf. destruct x as [v|]; cbn [write_float_field write_opt]; [|cbn; lia].
  rewrite app_length, write_fixed32_length, float_tag_length by exact Hf. lia.
Qed.

(** Parsing what was written gives the message back, and its size fits. *)
Definition codec (T : message_type) (ok : msg T -> Prop) : Prop :=
  forall m, ok m ->
    parse_message T (msg_write T m) = Some m /\ Z.of_nat (length (msg_write T m)) < 2 ^ 31.

Lemma price_codec : codec PriceRecordType price_message.
Proof.
  intros [t p v] (Ht & Hp & Hv). cbn in Ht, Hp, Hv. split.
  - apply fields_parse. cbn [msg_write PriceRecordType msg_empty]. unfold price_write. cbn [pm_timestamp pm_price pm_volume].
    apply fields_app with (m2 := PriceMsg t None None : msg PriceRecordType).
    { apply fields_int64; [lia|exact Ht| |intros ->; reflexivity].
      intros x ->. cbn [msg_merge PriceRecordType OhlcTickType SideInputRecordType]. unfold price_merge, tick_merge, side_merge. cbn [Z.eqb Pos.eqb].
      rewrite (int64_roundtrip x Ht). reflexivity. }
    apply fields_app with (m2 := PriceMsg t p None : msg PriceRecordType);
      apply fields_float; try lia; try assumption;
      try (intros -> ; reflexivity); intros x ->; reflexivity.
  - cbn [msg_write PriceRecordType]. unfold price_write. cbn [pm_timestamp pm_price pm_volume].
    rewrite !app_length.
    pose proof (int64_field_length 1 t ltac:(lia)).
    pose proof (float_field_length 2 p ltac:(lia)).
    pose proof (float_field_length 3 v ltac:(lia)).
    assert (100 < 2 ^ 31) by reflexivity. lia.
Qed.

Lemma tick_codec : codec OhlcTickType tick_message.
Proof.
  intros [t o h l c v] (Ht & Ho & Hh & Hl & Hc & Hv). cbn in Ht, Ho, Hh, Hl, Hc, Hv. split.
  - apply fields_parse.
    cbn [msg_write OhlcTickType msg_empty]. unfold tick_write. cbn [tm_timestamp tm_open tm_high tm_low tm_close tm_volume].
    apply fields_app with (m2 := TickMsg t None None None None None : msg OhlcTickType).
    { apply fields_int64; [lia|exact Ht| |intros ->; reflexivity].
      intros x ->. cbn [msg_merge PriceRecordType OhlcTickType SideInputRecordType]. unfold price_merge, tick_merge, side_merge. cbn [Z.eqb Pos.eqb].
      rewrite (int64_roundtrip x Ht). reflexivity. }
    apply fields_app with (m2 := TickMsg t o None None None None : msg OhlcTickType);
      [apply fields_float; try lia; try assumption;
       try (intros -> ; reflexivity); intros x ->; reflexivity|].
    apply fields_app with (m2 := TickMsg t o h None None None : msg OhlcTickType);
      [apply fields_float; try lia; try assumption;
       try (intros -> ; reflexivity); intros x ->; reflexivity|].
    apply fields_app with (m2 := TickMsg t o h l None None : msg OhlcTickType);
      [apply fields_float; try lia; try assumption;
       try (intros -> ; reflexivity); intros x ->; reflexivity|].
    apply fields_app with (m2 := TickMsg t o h l c None : msg OhlcTickType);
      apply fields_float; try lia; try assumption;
      try (intros -> ; reflexivity); intros x ->; reflexivity.
  - cbn [msg_write OhlcTickType]. unfold tick_write.
    cbn [tm_timestamp tm_open tm_high tm_low tm_close tm_volume].
    rewrite !app_length.
    pose proof (int64_field_length 1 t ltac:(lia)).
    pose proof (float_field_length 2 o ltac:(lia)).
    pose proof (float_field_length 3 h ltac:(lia)).
    pose proof (float_field_length 4 l ltac:(lia)).
    pose proof (float_field_length 5 c ltac:(lia)).
    pose proof (float_field_length 6 v ltac:(lia)).
    assert (100 < 2 ^ 31) by reflexivity. lia.
Qed.

Definition write_signals (xs : list Z) : bytes :=
  flat_map (fun x => write_tag 2 WT_FIXED32 ++ write_fixed32 x) xs.

Lemma signals_length xs : length (write_signals xs) = (5 * length xs)%nat.
Proof.
  induction xs as [|x xs IH]; [reflexivity|].
  unfold write_signals in *. cbn [flat_map]. rewrite !app_length, IH, float_tag_length by lia.
  cbn [length]. rewrite write_fixed32_length. lia.
Qed.

Lemma signals_fields t ys xs :
  Forall is_bits32 xs ->
  fields SideInputRecordType (SideMsg t ys) (write_signals xs) (SideMsg t (ys ++ xs)).
Proof.
  revert ys; induction xs as [|x xs IH]; intros ys H.
  - rewrite app_nil_r. apply fields_nil.
  - inversion H; subst. unfold write_signals. cbn [flat_map].
    apply fields_app with (m2 := SideMsg t (ys ++ [x]) : msg SideInputRecordType).
    + apply (fields_float SideInputRecordType 2 (Some x)); [lia|assumption| |discriminate].
      intros v E. injection E as <-. reflexivity.
    + replace (ys ++ x :: xs) with ((ys ++ [x]) ++ xs) by (rewrite <- app_assoc; reflexivity).
      apply IH. assumption.
Qed.

Lemma side_codec : codec SideInputRecordType side_message.
Proof.
  intros [t xs] (Ht & Hx & Hn). cbn [sm_timestamp sm_signal] in Ht, Hx, Hn. cbn in Ht. split.
  - apply fields_parse. cbn [msg_write SideInputRecordType msg_empty]. unfold side_write. cbn [sm_timestamp sm_signal].
    apply fields_app with (m2 := SideMsg t [] : msg SideInputRecordType).
    { apply fields_int64; [lia|exact Ht| |intros ->; reflexivity].
      intros x ->. cbn [msg_merge PriceRecordType OhlcTickType SideInputRecordType]. unfold price_merge, tick_merge, side_merge. cbn [Z.eqb Pos.eqb].
      rewrite (int64_roundtrip x Ht). reflexivity. }
    apply (signals_fields t [] xs Hx).
  - cbn [msg_write SideInputRecordType]. unfold side_write. cbn [sm_timestamp sm_signal].
    rewrite app_length. change (flat_map _ xs) with (write_signals xs).
    rewrite signals_length. pose proof (int64_field_length 1 t ltac:(lia)). lia.
Qed.

Lemma history_codec T ok : history_type T ok -> codec T ok.
Proof. intros []; [apply price_codec|apply tick_codec|apply side_codec]. Qed.

(** * Delimited messages *)

Section Delimited.
  Variable T : message_type.
  Variable ok : msg T -> Prop.
  Hypothesis Hcodec : codec T ok.

  Lemma serialize_nonempty m : (1 <= length (serialize_delimited T m))%nat.
  Proof.
    unfold serialize_delimited. rewrite app_length. unfold write_uint64.
    pose proof (write_varint_length 10 (Z.of_nat (length (msg_write T m))) ltac:(lia)). lia.
  Qed.

  Lemma parse_serialized m rest :
    ok m -> parse_delimited T (serialize_delimited T m ++ rest) = Parsed m rest.
  Proof.
    intros Hm. destruct (Hcodec m Hm) as (Hp & Hl).
    pose proof (serialize_nonempty m) as Hne.
    unfold parse_delimited.
    destruct (serialize_delimited T m ++ rest) as [|x b] eqn:E.
    { apply (f_equal (@length Z)) in E. rewrite app_length in E. cbn [length] in E. lia. }
    rewrite <- E. clear x b E. unfold serialize_delimited.
    assert (2 ^ 31 < 2 ^ 32) by reflexivity. assert (2 ^ 31 < 2 ^ 64) by reflexivity.
    rewrite <- app_assoc, read_write_uint64 by lia.
    rewrite Z.mod_small by lia.
    destruct (Z.leb_spec (Z.of_nat (length (msg_write T m)))
                         (Z.of_nat (length (msg_write T m ++ rest)))).
    - rewrite Nat2Z.id, firstn_app, skipn_app, Nat.sub_diag, firstn_all, skipn_all.
      cbn [firstn skipn app]. rewrite app_nil_r, Hp. reflexivity.
    - rewrite app_length in *. lia.
  Qed.

  Lemma parse_truncated m k :
    ok m -> (0 < k < length (serialize_delimited T m))%nat ->
    parse_delimited T (firstn k (serialize_delimited T m)) = ParseError.
  Proof.
    intros Hm Hk. destruct (Hcodec m Hm) as (Hp & Hl).
    unfold parse_delimited.
    destruct (firstn k (serialize_delimited T m)) as [|x b] eqn:E.
    { apply (f_equal (@length Z)) in E. rewrite firstn_length in E. cbn [length] in E. lia. }
    rewrite <- E. clear x b E. unfold serialize_delimited in *.
    rewrite app_length in Hk. rewrite firstn_app.
    set (w := write_uint64 (Z.of_nat (length (msg_write T m)))) in *.
    destruct (Nat.lt_ge_cases k (length w)) as [Hlt|Hge].
    - replace (k - length w)%nat with O by lia. cbn [firstn]. rewrite app_nil_r.
      unfold read_varint, w, write_uint64. rewrite read_short_varint by exact Hlt. reflexivity.
    - rewrite firstn_all2 by exact Hge. unfold w.
      assert (2 ^ 31 < 2 ^ 32) by reflexivity. assert (2 ^ 31 < 2 ^ 64) by reflexivity.
      rewrite read_write_uint64 by lia. rewrite Z.mod_small by lia.
      fold w. rewrite firstn_length.
      destruct (Z.leb_spec (Z.of_nat (length (msg_write T m)))
                           (Z.of_nat (Nat.min (k - length w) (length (msg_write T m)))));
        [lia|reflexivity].
  Qed.

  Lemma parse_shorter b m rest :
    parse_delimited T b = Parsed m rest -> (length rest < length b)%nat.
  Proof.
    unfold parse_delimited. destruct b as [|x b]; [discriminate|].
    destruct (read_varint (x :: b)) as [[n b1]|] eqn:E; [|discriminate].
    apply read_varint_shorter in E.
    destruct (_ <=? _); [|discriminate].
    destruct (parse_message _ _); [|discriminate].
    intros H. injection H as _ <-. rewrite skipn_length. lia.
  Qed.

  (** The messages found in any byte string, and how it ends. *)
  Inductive contents : bytes -> list (msg T) -> status -> Prop :=
  | contents_eof b : parse_delimited T b = CleanEof -> contents b [] Ok
  | contents_error b : parse_delimited T b = ParseError -> contents b [] InvalidArgument
  | contents_msg b m rest ms st :
      parse_delimited T b = Parsed m rest -> contents rest ms st -> contents b (m :: ms) st.

  Lemma contents_total b : exists ms st, contents b ms st.
  Proof.
    remember (length b) as n eqn:Hn. revert b Hn.
    induction n as [n IH] using (well_founded_induction lt_wf). intros b ->.
    destruct (parse_delimited T b) as [m rest| |] eqn:E.
    - pose proof (parse_shorter _ _ _ E) as L.
      destruct (IH _ L rest eq_refl) as (ms & st & H). eexists _, _. eapply contents_msg; eassumption.
    - eexists _, _. apply contents_eof; assumption.
    - eexists _, _. apply contents_error; assumption.
  Qed.

  Lemma read_streamed {S} (reader : S -> msg T -> S * reader_status) b ms st :
    contents b ms st -> forall fuel s, (length b < fuel)%nat ->
    exists s' st', read_delimited_loop T reader fuel s b = Some (s', st')
                   /\ streamed reader st s ms s' st'.
  Proof.
    induction 1 as [b E|b E|b m rest ms st E Hc IH]; intros fuel s Hf;
      (destruct fuel as [|fuel]; [lia|]); cbn [read_delimited_loop]; rewrite E.
    - eexists _, _. split; [reflexivity|constructor].
    - eexists _, _. split; [reflexivity|constructor].
    - pose proof (parse_shorter _ _ _ E).
      destruct (reader s m) as [s1 [| |]] eqn:Er.
      + destruct (IH fuel s1) as (s' & st' & H1 & H2); [lia|].
        eexists _, _. split; [exact H1|]. eapply streamed_continue; eassumption.
      + eexists _, _. split; [reflexivity|]. eapply streamed_break; eassumption.
      + eexists _, _. split; [reflexivity|]. eapply streamed_error; eassumption.
  Qed.

  Lemma streamed_push st s ms s' st' :
    streamed (push_reader T) st s ms s' st' -> s' = s ++ ms /\ st' = st.
  Proof.
    induction 1 as [s|s m ms s1 s2 st' E H IH|s m ms s1 E|s m ms s1 E]; cbn in *;
      try discriminate.
    - rewrite app_nil_r; auto.
    - injection E as <-. destruct IH as [-> ->]. rewrite <- app_assoc. auto.
  Qed.

  Lemma read_vector b ms st : contents b ms st -> ReadDelimitedVector T b = Some (ms, st).
  Proof.
    intros H. unfold ReadDelimitedVector, ReadDelimited.
    destruct (read_streamed (push_reader T) b ms st H (S (length b)) []) as (s' & st' & E & Hs); [lia|].
    apply streamed_push in Hs as [-> ->]. exact E.
  Qed.

  Lemma contents_written ms b ms' st :
    Forall ok ms -> contents b ms' st ->
    contents (WriteDelimitedMessages T ms ++ b) (ms ++ ms') st.
  Proof.
    intros H Hb. induction H as [|m ms Hm _ IH]; [exact Hb|].
    unfold WriteDelimitedMessages in *. cbn [flat_map]. rewrite <- app_assoc.
    eapply contents_msg; [apply parse_serialized; exact Hm|]. exact IH.
  Qed.

  Lemma written_app ms ms' :
    WriteDelimitedMessages T (ms ++ ms') = WriteDelimitedMessages T ms ++ WriteDelimitedMessages T ms'.
  Proof. apply flat_map_app. Qed.

  Lemma contents_truncated ms k :
    Forall ok ms ->
    exists n, whole_messages T ms k n
      /\ contents (firstn k (WriteDelimitedMessages T ms)) (firstn n ms)
           (if Nat.eqb (length (WriteDelimitedMessages T (firstn n ms)))
                       (Nat.min k (length (WriteDelimitedMessages T ms)))
            then Ok else InvalidArgument).
  Proof.
    intros H. revert k. induction H as [|m ms Hm Hms IH]; intros k.
    - exists O. split; [repeat split; cbn; auto; lia|].
      rewrite firstn_nil. cbn. rewrite Nat.min_0_r. cbn. apply contents_eof. reflexivity.
    - pose proof (serialize_nonempty m) as L1.
      assert (E : forall l, WriteDelimitedMessages T (m :: l)
                  = serialize_delimited T m ++ WriteDelimitedMessages T l) by reflexivity.
      destruct (Nat.lt_ge_cases k (length (serialize_delimited T m))) as [Hlt|Hge].
      + exists O. split.
        { split; [lia|]. split; [cbn; lia|]. right. cbn [firstn]. rewrite E, app_length. lia. }
        rewrite E, firstn_app. replace (k - length (serialize_delimited T m))%nat with O by lia.
        cbn [firstn]. rewrite app_nil_r, app_length.
        change (length (WriteDelimitedMessages T [])) with O.
        destruct k as [|k].
        * cbn. apply contents_eof. reflexivity.
        * destruct (Nat.eqb_spec 0 (Nat.min (S k) (length (serialize_delimited T m)
                       + length (WriteDelimitedMessages T ms)))) as [Hz|_]; [lia|].
          apply contents_error. apply parse_truncated; [exact Hm|lia].
      + destruct (IH (k - length (serialize_delimited T m))%nat) as (n & (W1 & W2 & W3) & Hc).
        exists (S n). split.
        { split; [cbn [length]; lia|].
          change (firstn (S n) (m :: ms)) with (m :: firstn n ms).
          rewrite E, app_length. split; [lia|].
          destruct W3 as [W3|W3]; [left; cbn [length]; lia|right].
          change (firstn (S (S n)) (m :: ms)) with (m :: firstn (S n) ms).
          rewrite E, app_length. lia. }
        rewrite E, firstn_app, firstn_all2 by exact Hge.
        cbn [firstn]. rewrite E, !app_length.
        eapply contents_msg; [apply parse_serialized; exact Hm|].
        match goal with |- contents _ _ (if ?x then _ else _) =>
          match type of Hc with contents _ _ (if ?y then _ else _) => replace x with y end end.
        * exact Hc.
        * apply eq_true_iff_eq. rewrite !Nat.eqb_eq. lia.
  Qed.
End Delimited.

Lemma streamed_logging {A S} (reader : S -> A -> S * reader_status) ending ms s l s' st :
  streamed reader ending s ms s' st -> forall s2 seen st2,
  streamed (logging reader) ending (s, l) ms (s2, seen) st2 ->
  s2 = s' /\ st2 = st /\ exists unseen, l ++ ms = seen ++ unseen
    /\ exists new, seen = l ++ new
    /\ ((unseen = [] /\ continues reader s new s' /\ st = ending)
        \/ exists pre m sp, new = pre ++ [m] /\ continues reader s pre sp
             /\ ((reader sp m = (s', kBreak) /\ st = Ok)
                 \/ (reader sp m = (s', ReaderError) /\ st = Aborted))).
Proof.
  intros H. revert l.
  induction H as [s|s m ms s1 s' st E H IH|s m ms s1 E|s m ms s1 E]; intros l s2 seen st2 H2.
  - inversion H2; subst. split; [reflexivity|]. split; [reflexivity|].
    exists []. split; [reflexivity|]. exists []. rewrite app_nil_r. split; [reflexivity|].
    left. repeat split. constructor.
  - inversion H2 as [|? ? ? t1 ? ? E2 H3|? ? ? t1 E2|? ? ? t1 E2]; subst;
      unfold logging in E2; cbn [fst snd] in E2; rewrite E in E2; try discriminate.
    injection E2 as <-. destruct (IH _ _ _ _ H3) as (-> & -> & unseen & Eu & new & -> & Hn).
    split; [reflexivity|]. split; [reflexivity|].
    exists unseen. split.
    { rewrite <- Eu, <- app_assoc. reflexivity. }
    exists (m :: new). split; [rewrite <- app_assoc; reflexivity|].
    destruct Hn as [(-> & Hn & ->)|(pre & m' & sp & -> & Hp & Hr)].
    + left. repeat split. econstructor; eassumption.
    + right. exists (m :: pre), m', sp. split; [reflexivity|]. split; [econstructor; eassumption|exact Hr].
  - inversion H2 as [|? ? ? t1 ? ? E2 H3|? ? ? t1 E2|? ? ? t1 E2]; subst;
      unfold logging in E2; cbn [fst snd] in E2; rewrite E in E2; try discriminate.
    injection E2 as <- <-. split; [reflexivity|]. split; [reflexivity|].
    exists ms. split; [rewrite <- app_assoc; reflexivity|]. exists [m]. split; [reflexivity|].
    right. exists [], m, s. split; [reflexivity|]. split; [constructor|]. left; auto.
  - inversion H2 as [|? ? ? t1 ? ? E2 H3|? ? ? t1 E2|? ? ? t1 E2]; subst;
      unfold logging in E2; cbn [fst snd] in E2; rewrite E in E2; try discriminate.
    injection E2 as <- <-. split; [reflexivity|]. split; [reflexivity|].
    exists ms. split; [rewrite <- app_assoc; reflexivity|]. exists [m]. split; [reflexivity|].
    right. exists [], m, s. split; [reflexivity|]. split; [constructor|]. right; auto.
Qed.

(** * Bytes *)


Lemma varint_bytes fuel v : 0 <= v -> is_bytes (write_varint fuel v).
Proof.
  revert v; induction fuel as [|fuel IH]; intros v H; [constructor|].
  cbn. destruct (Z.ltb_spec v 128); [repeat constructor; lia|].
  pose proof (Z.mod_pos_bound v 128 ltac:(lia)).
  constructor; [lia|]. apply IH. apply Z.div_pos; lia.
Qed.

Lemma fixed32_bytes v : is_bytes (write_fixed32 v).
Proof.
  repeat constructor; try apply Z.mod_pos_bound; lia.
Qed.

Lemma int64_field_bytes field x : 0 < field -> is_bytes (write_int64_field field x).
Proof.
  intros Hf. destruct x; [|constructor]. apply Forall_app. split; apply varint_bytes.
  - unfold WT_VARINT; lia.
  - apply Z.mod_pos_bound. reflexivity.
Qed.

Lemma float_field_bytes field x : 0 < field -> is_bytes (write_float_field field x).
Proof.
  intros Hf. destruct x; [|constructor]. apply Forall_app.
  split; [apply varint_bytes; unfold WT_FIXED32; lia|apply fixed32_bytes].
Qed.

Lemma serialize_bytes T m : is_bytes (msg_write T m) -> is_bytes (serialize_delimited T m).
Proof.
  intros H. apply Forall_app. split; [apply varint_bytes; lia|exact H].
Qed.

Lemma price_bytes m : is_bytes (msg_write PriceRecordType m).
Proof.
  repeat (apply Forall_app; split);
    first [apply int64_field_bytes; lia|apply float_field_bytes; lia].
Qed.
Lemma tick_bytes m : is_bytes (msg_write OhlcTickType m).
Proof.
  repeat (apply Forall_app; split);
    first [apply int64_field_bytes; lia|apply float_field_bytes; lia].
Qed.
Lemma side_bytes m : is_bytes (msg_write SideInputRecordType m).
Proof.
  apply Forall_app; split; [apply int64_field_bytes; lia|].
  induction (sm_signal m) as [|x xs IH]; [constructor|].
  cbn [flat_map]. apply Forall_app. split; [|exact IH].
  apply (float_field_bytes 2 (Some x)). lia.
Qed.
