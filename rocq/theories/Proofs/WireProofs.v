(** The reader accepts exactly the files of the wire format. *)
From Coq Require Import ZArith List Lia Bool.
From Verif.Model Require Import Proto.
From Verif.Spec Require Import ProtoSpec WireSpec.
From Verif.Proofs Require Import ProtoProofs.
Import ListNotations.
Local Open Scope Z_scope.

Lemma mod_step acc x s v : 0 <= s ->
  ((acc + (x mod 128) * 2 ^ s) mod 2 ^ 64 + v * 2 ^ (s + 7)) mod 2 ^ 64 = (acc + (x mod 128 + 128 * v) * 2 ^ s) mod 2 ^ 64.
Proof.
  intros Hs. rewrite Z.add_mod_idemp_l by lia. f_equal. rewrite Z.pow_add_r by lia. change (2 ^ 7) with 128. ring.
Qed.

Lemma read_varint_loop_spec fuel : forall s acc b v rest, 0 <= s -> is_bytes b -> 0 <= acc < 2 ^ 64 ->
  read_varint_loop fuel s acc b = Some (v, rest) <->
  exists pre n, b = pre ++ rest /\ base128 pre n /\ (length pre <= fuel)%nat /\ v = (acc + n * 2 ^ s) mod 2 ^ 64.
Proof.
  induction fuel as [|fuel IH]; intros s acc b v rest Hs Hb Ha.
  - split; [discriminate|]. intros (pre & n & _ & H & L & _). destruct H; cbn in L; lia.
  - cbn [read_varint_loop]. destruct b as [|x b].
    + split; [discriminate|]. intros (pre & n & E & H & _). destruct H; discriminate.
    + apply Forall_cons_iff in Hb as [Hx Hb]. destruct (Z.ltb_spec x 128) as [Lx|Lx].
      * split.
        -- intros H. injection H as <- <-. exists [x], x. split; [reflexivity|]. split; [constructor; lia|]. split; [cbn; lia|].
           rewrite (Z.mod_small x) by lia. reflexivity.
        -- intros (pre & n & E & H & L & ->). destruct H as [y Hy|y p w Hy Hp]; cbn in E; injection E as <- E; [|lia].
           rewrite (Z.mod_small x) by lia. subst. reflexivity.
      * rewrite (IH (s + 7) _ b v rest ltac:(lia) Hb (Z.mod_pos_bound (acc + x mod 128 * 2 ^ s) (2 ^ 64) eq_refl)).
        assert (X : x mod 128 = x - 128) by (symmetry; apply Z.mod_unique with 1; lia).
        split.
        -- intros (pre & n & E & H & L & ->). exists (x :: pre), ((x - 128) + 128 * n). split; [cbn; congruence|]. split; [constructor; [lia|exact H]|].
           split; [cbn; lia|]. rewrite mod_step by lia. rewrite X. reflexivity.
        -- intros (pre & n & E & H & L & ->). destruct H as [y Hy|y p w Hy Hp]; cbn in E; injection E as <- E; [lia|].
           exists p, w. split; [exact E|]. split; [exact Hp|]. split; [cbn in L; lia|]. rewrite mod_step by lia. rewrite X. reflexivity.
Qed.

Lemma read_varint_spec b v rest : is_bytes b ->
  read_varint b = Some (v, rest) <-> exists pre, b = pre ++ rest /\ varint pre v.
Proof.
  intros Hb. unfold read_varint. rewrite (read_varint_loop_spec 10 0 0 b v rest) by (auto; lia). split.
  - intros (pre & n & E & H & L & ->). exists pre. split; [exact E|]. exists n. split; [exact H|]. split; [exact L|]. f_equal. lia.
  - intros (pre & E & n & H & L & ->). exists pre, n. split; [exact E|]. split; [exact H|]. split; [exact L|]. f_equal. lia.
Qed.

Lemma varint_nonempty b v : varint b v -> (1 <= length b)%nat.
Proof. intros (n & H & _). destruct H; cbn; lia. Qed.

Lemma bytes_app a b : is_bytes (a ++ b) <-> is_bytes a /\ is_bytes b.
Proof. unfold is_bytes. apply Forall_app. Qed.

Lemma read_fixed32_spec b v rest : read_fixed32 b = Some (v, rest) <-> exists pre, b = pre ++ rest /\ four_bytes pre v.
Proof.
  split.
  - unfold read_fixed32. destruct b as [|b0 [|b1 [|b2 [|b3 b]]]]; try discriminate. intros H. injection H as <- <-.
    exists [b0; b1; b2; b3]. split; [reflexivity|constructor].
  - intros (pre & -> & H). destruct H. reflexivity.
Qed.

Lemma tag_parts f w : 0 <= w < 8 -> (8 * f + w) / 8 = f /\ (8 * f + w) mod 8 = w.
Proof. intros H. split; [symmetry; apply Z.div_unique with w; lia|symmetry; apply Z.mod_unique with f; lia]. Qed.

Lemma varint_mod bt v : varint bt v -> 0 <= v < 2 ^ 64.
Proof. intros (n & _ & _ & ->). apply Z.mod_pos_bound. reflexivity. Qed.

Lemma read_field_spec b f v rest : is_bytes b ->
  read_field b = Some (f, v, rest) <-> exists pre, b = pre ++ rest /\ wire_field pre f v.
Proof.
  intros Hb. split.
  - unfold read_field. destruct (read_varint b) as [[tag b1]|] eqn:E1; [|discriminate].
    apply (read_varint_spec b tag b1 Hb) in E1 as (bt & -> & Vt). apply bytes_app in Hb as [_ Hb1].
    assert (TT : tag = 8 * (tag / 8) + tag mod 8) by (apply Z.div_mod; lia).
    destruct (Z.eqb_spec (tag / 8) 0) as [|Nz]; [discriminate|].
    destruct (Z.eqb_spec (tag mod 8) WT_VARINT) as [W|_].
    { destruct (read_varint b1) as [[x b2]|] eqn:E2; [|discriminate]. intros H. injection H as <- <- <-.
      apply (read_varint_spec b1 x b2 Hb1) in E2 as (bv & -> & Vv).
      exists (bt ++ bv). split; [apply app_assoc|]. apply wire_varint; auto. rewrite TT, W in Vt. exact Vt. }
    destruct (Z.eqb_spec (tag mod 8) WT_FIXED32) as [W|_].
    { destruct (read_fixed32 b1) as [[x b2]|] eqn:E2; [|discriminate]. intros H. injection H as <- <- <-.
      apply read_fixed32_spec in E2 as (bv & -> & Vv).
      exists (bt ++ bv). split; [apply app_assoc|]. apply wire_fixed32; auto. rewrite TT, W in Vt. exact Vt. }
    destruct (Z.eqb_spec (tag mod 8) WT_FIXED64) as [W|_].
    { destruct (Z.leb_spec 8 (Z.of_nat (length b1))) as [L|]; [|discriminate]. intros H. injection H as <- <- <-.
      exists (bt ++ firstn 8 b1). split; [rewrite <- app_assoc; f_equal; symmetry; apply (firstn_skipn 8)|].
      apply wire_fixed64; auto; [rewrite TT, W in Vt; exact Vt|]. rewrite firstn_length. lia. }
    destruct (Z.eqb_spec (tag mod 8) WT_LENGTH) as [W|_]; [|discriminate].
    destruct (read_varint b1) as [[n b2]|] eqn:E2; [|discriminate].
    apply (read_varint_spec b1 n b2 Hb1) in E2 as (bn & -> & Vn). pose proof (varint_mod _ _ Vn) as Hn.
    destruct (Z.leb_spec n (Z.of_nat (length b2))) as [L|]; [|discriminate]. intros H. injection H as <- <- <-.
    exists (bt ++ bn ++ firstn (Z.to_nat n) b2). split; [rewrite <- !app_assoc; do 2 f_equal; symmetry; apply firstn_skipn|].
    apply wire_bytes; auto; [rewrite TT, W in Vt; exact Vt|]. rewrite firstn_length, Nat.min_l by lia. rewrite Z2Nat.id by lia. exact Vn.
  - intros (pre & -> & H). unfold read_field.
    destruct H as [bt bv f v Nf Vt Vv|bt bv f v Nf Vt Vv|bt bv f Nf Vt L|bt bn bv f Nf Vt Vn];
      rewrite <- ?app_assoc in Hb |- *; apply bytes_app in Hb as [Hbt Hb'];
      rewrite (proj2 (read_varint_spec (bt ++ _) _ _ ltac:(apply bytes_app; split; [exact Hbt|exact Hb'])) (ex_intro _ bt (conj eq_refl Vt)));
      cbv zeta; match type of Vt with varint _ (8 * _ + ?w) => destruct (tag_parts f w ltac:(lia)) as [-> ->] end;
      rewrite (proj2 (Z.eqb_neq f 0) Nf); cbn [Z.eqb Pos.eqb WT_VARINT WT_FIXED32 WT_FIXED64 WT_LENGTH].
    + rewrite (proj2 (read_varint_spec _ _ _ Hb') (ex_intro _ bv (conj eq_refl Vv))). reflexivity.
    + rewrite (proj2 (read_fixed32_spec _ _ _) (ex_intro _ bv (conj eq_refl Vv))). reflexivity.
    + destruct (Z.leb_spec 8 (Z.of_nat (length (bv ++ rest)))) as [|K]; [|rewrite app_length in K; lia].
      replace (skipn 8 (bv ++ rest)) with rest; [reflexivity|]. rewrite skipn_app, skipn_all2 by lia. rewrite L. reflexivity.
    + rewrite (proj2 (read_varint_spec _ _ _ Hb') (ex_intro _ bn (conj eq_refl Vn))).
      destruct (Z.leb_spec (Z.of_nat (length bv)) (Z.of_nat (length (bv ++ rest)))) as [|K]; [|rewrite app_length in K; lia].
      rewrite Nat2Z.id, firstn_app, Nat.sub_diag, firstn_all, skipn_app, skipn_all, Nat.sub_diag. cbn [firstn skipn]. rewrite app_nil_r. reflexivity.
Qed.

Lemma wire_field_nonempty b f v : wire_field b f v -> (1 <= length b)%nat.
Proof. intros H. destruct H; rewrite app_length; match goal with V : varint _ (8 * _ + _) |- _ => pose proof (varint_nonempty _ _ V) end; lia. Qed.

(** Merging the fields, one after the other. *)
Fixpoint merge_all (T : message_type) (m : msg T) (fs : list (Z * wire_value)) : option (msg T) :=
  match fs with
  | [] => Some m
  | (f, v) :: fs' => match msg_merge T m f v with Some m' => merge_all T m' fs' | None => None end
  end.

Lemma parse_fields_spec T fuel : forall m b m', is_bytes b -> (length b <= fuel)%nat ->
  parse_fields T fuel m b = Some m' <-> exists fs, wire_fields b fs /\ merge_all T m fs = Some m'.
Proof.
  induction fuel as [|fuel IH]; intros m b m' Hb L.
  - destruct b as [|x b]; [|cbn in L; lia]. cbn. split.
    + intros H. exists []. split; [constructor|exact H].
    + intros (fs & W & H). inversion W as [|? ? ? ? ? Wf Ws E]; subst; [exact H|].
      apply wire_field_nonempty in Wf. apply (f_equal (@length Z)) in E. rewrite app_length in E. cbn in E. lia.
  - destruct b as [|x b].
    + cbn. split.
      * intros H. exists []. split; [constructor|exact H].
      * intros (fs & W & H). inversion W as [|? ? ? ? ? Wf Ws E]; subst; [exact H|].
        apply wire_field_nonempty in Wf. apply (f_equal (@length Z)) in E. rewrite app_length in E. cbn in E. lia.
    + cbn [parse_fields]. remember (x :: b) as l eqn:El. split.
      * destruct (read_field l) as [[[f v] b']|] eqn:E; [|discriminate]. apply (read_field_spec l f v b' Hb) in E as (pre & Epre & W).
        destruct (msg_merge T m f v) as [m1|] eqn:Em; [|discriminate]. intros H.
        rewrite Epre in Hb, L. apply bytes_app in Hb as [_ Hb']. apply wire_field_nonempty in W as Lw. rewrite app_length in L.
        apply IH in H as (fs & Ws & Hm); [|exact Hb'|lia].
        exists ((f, v) :: fs). rewrite Epre. split; [constructor; assumption|]. cbn [merge_all]. rewrite Em. exact Hm.
      * intros (fs & W & H). destruct W as [|pre f v b' fs W Ws]; [discriminate|].
        rewrite (proj2 (read_field_spec _ f v b' Hb) (ex_intro _ pre (conj eq_refl W))).
        apply bytes_app in Hb as [_ Hb']. apply wire_field_nonempty in W as Lw. rewrite app_length in L.
        cbn [merge_all] in H. destruct (msg_merge T m f v) as [m1|]; [|discriminate]. apply IH; [exact Hb'|lia|]. exists fs. auto.
Qed.

(** ** What the fields mean *)
Definition upd (m : option Z) (x : option Z) : option Z := match x with Some v => Some v | None => m end.

Lemma upd_last sel x fs m : upd m (last_field sel (x :: fs)) = upd (upd m (sel x)) (last_field sel fs).
Proof. cbn [last_field]. destruct (last_field sel fs); reflexivity. Qed.

Lemma price_fields fs : forall m m', merge_all PriceRecordType m fs = Some m' <->
  pm_timestamp m' = upd (pm_timestamp m) (last_field (integer_field 1) fs) /\
  pm_price m' = upd (pm_price m) (last_field (float_field 2) fs) /\
  pm_volume m' = upd (pm_volume m) (last_field (float_field 3) fs).
Proof.
  induction fs as [|[f v] fs IH]; intros m m'.
  - cbn. destruct m as [a b c], m' as [a' b' c']. cbn. split; [intros H; injection H; auto|intros (-> & -> & ->); reflexivity].
  - cbn [merge_all msg_merge PriceRecordType price_merge]. rewrite IH, !upd_last.
    destruct m as [a b c]. destruct v as [x|x| |x]; cbn [integer_field float_field upd pm_timestamp pm_price pm_volume]; try reflexivity.
    + fold (to_int64 x). destruct (f =? 1); reflexivity.
    + destruct (Z.eqb_spec f 2) as [->|]; [reflexivity|]. destruct (f =? 3); reflexivity.
Qed.

Lemma tick_fields fs : forall m m', merge_all OhlcTickType m fs = Some m' <->
  tm_timestamp m' = upd (tm_timestamp m) (last_field (integer_field 1) fs) /\
  tm_open m' = upd (tm_open m) (last_field (float_field 2) fs) /\
  tm_high m' = upd (tm_high m) (last_field (float_field 3) fs) /\
  tm_low m' = upd (tm_low m) (last_field (float_field 4) fs) /\
  tm_close m' = upd (tm_close m) (last_field (float_field 5) fs) /\
  tm_volume m' = upd (tm_volume m) (last_field (float_field 6) fs).
Proof.
  induction fs as [|[f v] fs IH]; intros m m'.
  - cbn. destruct m as [a b c d e g], m' as [a' b' c' d' e' g']. cbn. split; [intros H; injection H; auto 8|intros (-> & -> & -> & -> & -> & ->); reflexivity].
  - destruct m as [a b c d e g]. cbn [merge_all msg_merge OhlcTickType tick_merge]. rewrite IH, !upd_last.
    destruct v as [x|x| |x]; cbn [integer_field float_field upd tm_timestamp tm_open tm_high tm_low tm_close tm_volume]; try reflexivity.
    + fold (to_int64 x). destruct (f =? 1); reflexivity.
    + destruct (Z.eqb_spec f 2) as [->|]; [reflexivity|]. destruct (Z.eqb_spec f 3) as [->|]; [reflexivity|].
      destruct (Z.eqb_spec f 4) as [->|]; [reflexivity|]. destruct (Z.eqb_spec f 5) as [->|]; [reflexivity|].
      destruct (f =? 6); reflexivity.
Qed.

Lemma read_packed_spec fuel : forall b xs, (length b <= fuel)%nat -> read_packed fuel b = Some xs <-> packed b xs.
Proof.
  induction fuel as [|fuel IH]; intros b xs L.
  - destruct b; [|cbn in L; lia]. cbn. split; [intros H; injection H as <-; constructor|]. intros H. inversion H as [|a x b ys F P E]; subst; [reflexivity|].
    destruct F; discriminate.
  - destruct b as [|y b].
    + cbn. split; [intros H; injection H as <-; constructor|]. intros H. inversion H as [|a x b ys F P E]; subst; [reflexivity|]. destruct F; discriminate.
    + cbn [read_packed]. remember (y :: b) as l eqn:El. split.
      * destruct (read_fixed32 l) as [[x b']|] eqn:E; [|discriminate]. apply read_fixed32_spec in E as (pre & Epre & F).
        destruct (read_packed fuel b') as [ys|] eqn:E2; [|discriminate]. cbn. intros H. injection H as <-. rewrite Epre. constructor; [exact F|].
        apply IH; [|exact E2]. rewrite Epre, app_length in L. destruct F; cbn in L; lia.
      * intros H. destruct H as [|a x b' xs F P]; [discriminate|].
        rewrite (proj2 (read_fixed32_spec _ x b') (ex_intro _ a (conj eq_refl F))).
        rewrite (proj2 (IH b' xs ltac:(rewrite app_length in L; destruct F; cbn in L; lia)) P). reflexivity.
Qed.

Lemma side_fields fs : forall m m', merge_all SideInputRecordType m fs = Some m' <->
  sm_timestamp m' = upd (sm_timestamp m) (last_field (integer_field 1) fs) /\
  exists xs, signals fs xs /\ sm_signal m' = sm_signal m ++ xs.
Proof.
  induction fs as [|[f v] fs IH]; intros m m'.
  - cbn. destruct m as [a b], m' as [a' b']. cbn. split.
    + intros H. injection H as -> ->. split; [reflexivity|]. exists []. split; [constructor|]. rewrite app_nil_r. reflexivity.
    + intros (-> & xs & H & ->). inversion H; subst. rewrite app_nil_r. reflexivity.
  - cbn [merge_all msg_merge SideInputRecordType]. rewrite upd_last. unfold side_merge.
    assert (Other : (forall x, (f, v) <> (2, WFixed32 x)) -> (forall b, (f, v) <> (2, WBytes b)) ->
       forall xs, signals ((f, v) :: fs) xs <-> signals fs xs).
    { intros N1 N2 xs. split; [|intros H; constructor; auto]. intros H. inversion H; subst; auto; exfalso; [eapply N1|eapply N2]; reflexivity. }
    destruct v as [x|x| |x].
    + cbn [integer_field]. rewrite IH. setoid_rewrite (Other ltac:(intros; congruence) ltac:(intros; congruence)).
      fold (to_int64 x). destruct (f =? 1); reflexivity.
    + cbn [integer_field upd]. destruct (Z.eqb_spec f 2) as [->|N].
      * rewrite IH. cbn [sm_timestamp sm_signal]. split; intros (E & xs & H & ->); (split; [exact E|]).
        -- exists (x :: xs). split; [constructor; exact H|]. rewrite <- app_assoc. reflexivity.
        -- inversion H as [|y fs' ys Hs|b ys fs' zs Hp Hs|g w fs' ys N1 N2 Hs]; subst; [|exfalso; eapply N1; reflexivity].
           exists ys. split; [exact Hs|]. rewrite <- app_assoc. reflexivity.
      * rewrite IH. setoid_rewrite (Other ltac:(intros; congruence) ltac:(intros; congruence)). reflexivity.
    + cbn [integer_field upd]. rewrite IH. setoid_rewrite (Other ltac:(intros; congruence) ltac:(intros; congruence)). reflexivity.
    + cbn [integer_field upd]. destruct (Z.eqb_spec f 2) as [->|N].
      * destruct (read_packed (length x) x) as [ys|] eqn:E.
        -- apply read_packed_spec in E; [|lia]. rewrite IH. cbn [sm_timestamp sm_signal]. split; intros (E1 & xs & H & ->); (split; [exact E1|]).
           ++ exists (ys ++ xs). split; [constructor; assumption|]. rewrite <- app_assoc. reflexivity.
           ++ inversion H as [|y fs' zs Hs|b zs fs' us Hp Hs|g w fs' zs N1 N2 Hs]; subst; [|exfalso; eapply N2; reflexivity].
              assert (zs = ys) as ->.
              { apply (read_packed_spec (length x) x) in Hp; [|lia]. apply (read_packed_spec (length x) x) in E; [|lia]. congruence. }
              exists us. split; [exact Hs|]. rewrite <- app_assoc. reflexivity.
        -- split; [discriminate|]. intros (_ & xs & H & _). exfalso.
           inversion H as [|y fs' zs Hs|b zs fs' us Hp Hs|g w fs' zs N1 N2 Hs]; subst; [|eapply N2; reflexivity].
           apply (read_packed_spec (length x) x) in Hp; [|lia]. congruence.
      * rewrite IH. setoid_rewrite (Other ltac:(intros; congruence) ltac:(intros; congruence)). reflexivity.
Qed.

Lemma upd_none x : upd None x = x.
Proof. destruct x; reflexivity. Qed.

Lemma meaning_spec T means fs m : meaning T means -> merge_all T (msg_empty T) fs = Some m <-> means fs m.
Proof.
  intros H. destruct H; cbn [msg_empty PriceRecordType OhlcTickType SideInputRecordType].
  - rewrite price_fields. cbn [pm_timestamp pm_price pm_volume]. rewrite !upd_none. reflexivity.
  - rewrite tick_fields. cbn [tm_timestamp tm_open tm_high tm_low tm_close tm_volume]. rewrite !upd_none. reflexivity.
  - rewrite side_fields. cbn [sm_timestamp sm_signal]. rewrite !upd_none. unfold means_side. split; intros (E & H); (split; [exact E|]).
    + destruct H as (xs & H & ->). exact H.
    + exists (sm_signal m). split; [exact H|reflexivity].
Qed.

Lemma parse_message_spec T means b m : meaning T means -> is_bytes b ->
  parse_message T b = Some m <-> exists fs, wire_fields b fs /\ means fs m.
Proof.
  intros HT Hb. unfold parse_message. rewrite (parse_fields_spec T (length b)) by (auto; lia).
  split; intros (fs & W & H); exists fs; (split; [exact W|]); apply (meaning_spec T means); auto.
Qed.

(** ** Files *)
Lemma parse_delimited_spec T means b m rest : meaning T means -> is_bytes b ->
  parse_delimited T b = Parsed m rest <->
  exists bn n body fs, b = bn ++ body ++ rest /\ varint bn n /\ Z.of_nat (length body) = n mod 2 ^ 32 /\ wire_fields body fs /\ means fs m.
Proof.
  intros HT Hb. unfold parse_delimited. split.
  - destruct b as [|x b]; [discriminate|]. remember (x :: b) as l. clear Heql.
    destruct (read_varint l) as [[n b1]|] eqn:E; [|discriminate]. apply (read_varint_spec l n b1 Hb) in E as (bn & -> & V).
    cbv zeta. pose proof (Z.mod_pos_bound n (2 ^ 32) ltac:(reflexivity)) as Hm. set (k := n mod 2 ^ 32) in *.
    destruct (Z.leb_spec k (Z.of_nat (length b1))) as [L|]; [|discriminate].
    destruct (parse_message T (firstn (Z.to_nat k) b1)) as [m'|] eqn:P; [|discriminate]. intros H. injection H as <- <-.
    apply bytes_app in Hb as [_ Hb]. rewrite <- (firstn_skipn (Z.to_nat k) b1) in Hb. apply bytes_app in Hb as [Hb _].
    apply (parse_message_spec T means) in P as (fs & W & Hm'); auto.
    exists bn, n, (firstn (Z.to_nat k) b1), fs. rewrite firstn_skipn. split; [reflexivity|]. split; [exact V|].
    split; [rewrite firstn_length, Nat.min_l by lia; rewrite Z2Nat.id by lia; reflexivity|]. auto.
  - intros (bn & n & body & fs & -> & V & L & W & Hm). pose proof (varint_nonempty _ _ V) as Ne.
    destruct (bn ++ body ++ rest) as [|x l] eqn:El; [apply (f_equal (@length Z)) in El; rewrite app_length in El; cbn in El; lia|]. rewrite <- El. rewrite <- El in Hb. clear El x l.
    rewrite (proj2 (read_varint_spec _ n (body ++ rest) Hb) (ex_intro _ bn (conj eq_refl V))). cbv zeta. rewrite <- L, Nat2Z.id.
    destruct (Z.leb_spec (Z.of_nat (length body)) (Z.of_nat (length (body ++ rest)))) as [|K]; [|rewrite app_length in K; lia].
    rewrite firstn_app, Nat.sub_diag, firstn_all, skipn_app, skipn_all, Nat.sub_diag. cbn [firstn skipn]. rewrite app_nil_r.
    apply bytes_app in Hb as [_ Hb]. apply bytes_app in Hb as [Hb _].
    rewrite (proj2 (parse_message_spec T means body m HT Hb) (ex_intro _ fs (conj W Hm))). reflexivity.
Qed.

Lemma parse_delimited_eof T b : parse_delimited T b = CleanEof <-> b = [].
Proof.
  split; [|intros ->; reflexivity]. destruct b as [|x b]; [reflexivity|]. unfold parse_delimited. destruct (read_varint (x :: b)) as [[n b1]|]; [|discriminate].
  cbv zeta. destruct (_ <=? _); [|discriminate]. destruct (parse_message _ _); discriminate.
Qed.

Lemma read_loop_spec T means fuel : meaning T means -> forall acc b, is_bytes b -> (length b < fuel)%nat ->
  exists ms st, read_delimited_loop T (push_reader T) fuel acc b = Some (acc ++ ms, st) /\ (st = Ok \/ st = InvalidArgument) /\
    (st = Ok -> file_of means b ms) /\ (forall ms', file_of means b ms' -> st = Ok /\ ms = ms').
Proof.
  intros HT. induction fuel as [|fuel IH]; intros acc b Hb L; [lia|]. cbn [read_delimited_loop].
  assert (FO : forall ms', file_of means b ms' -> match ms' with [] => b = [] | m :: ms'' => exists rest, parse_delimited T b = Parsed m rest /\ file_of means rest ms'' end).
  { intros ms' (bodies & Fr & F2). destruct Fr as [|bn n body rest bodies V Lb Fr]; inversion F2 as [|? m' ? ms'' Hm F3]; subst; [reflexivity|].
    destruct Hm as (fs & W & Hm). exists rest. split; [|exists bodies; auto]. apply (parse_delimited_spec T means); auto. exists bn, n, body, fs. auto. }
  destruct (parse_delimited T b) as [m rest| |] eqn:P.
  - apply (parse_delimited_spec T means) in P as P'; auto. destruct P' as (bn & n & body & fs & Eb & V & Lb & W & Hm).
    rewrite Eb in Hb, L. apply bytes_app in Hb as [_ Hb]. apply bytes_app in Hb as [_ Hb]. pose proof (varint_nonempty _ _ V) as Ne.
    rewrite !app_length in L. destruct (IH (acc ++ [m]) rest Hb ltac:(lia)) as (ms & st & R & S1 & S2 & S3).
    cbn [push_reader]. exists (m :: ms), st. rewrite R, <- app_assoc. split; [reflexivity|]. split; [exact S1|]. split.
    + intros E. destruct (S2 E) as (bodies & Fr & F2). exists (body :: bodies). rewrite Eb. split; [econstructor; eassumption|]. constructor; [exists fs; auto|exact F2].
    + intros ms' Hf. specialize (FO ms' Hf). destruct ms' as [|m' ms''].
      * rewrite FO in Eb. apply (f_equal (@length Z)) in Eb. rewrite !app_length in Eb. cbn in Eb. lia.
      * destruct FO as (rest' & E & Hf'). injection E as <- <-. destruct (S3 ms'' Hf') as [-> ->]. auto.
  - apply parse_delimited_eof in P. subst b. exists [], Ok. rewrite app_nil_r. split; [reflexivity|]. split; [auto|]. split.
    + intros _. exists []. split; constructor.
    + intros ms' Hf. specialize (FO ms' Hf). destruct ms' as [|m' ms'']; [auto|]. destruct FO as (rest & E & _). discriminate.
  - exists [], InvalidArgument. rewrite app_nil_r. split; [reflexivity|]. split; [auto|]. split; [discriminate|].
    intros ms' Hf. specialize (FO ms' Hf). destruct ms' as [|m' ms'']; [subst b; discriminate|]. destruct FO as (rest & E & _). discriminate.
Qed.
