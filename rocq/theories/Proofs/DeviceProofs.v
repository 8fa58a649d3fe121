(** Files on a full device. *)
From Coq Require Import String ZArith Bool List Lia.
From Verif.Model Require Import Outcome Proto Programs Device.
From Verif.Spec Require Import DeviceSpec.
From Verif.Proofs Require Import Base.
Import ListNotations.
Local Open Scope nat_scope.

Lemma block_pos : 0 < block.
Proof. unfold block. lia. Qed.
Lemma block_val : Z.of_nat block = 8192%Z.
Proof. unfold block. rewrite Z2Nat.id; lia. Qed.

Local Opaque block.

(** The number of bytes written before the stream is closed. *)
Definition flushed (n : nat) : nat := block * ((n - 1) / block).

Lemma flushed_le n : flushed n <= n.
Proof. unfold flushed. pose proof block_pos. pose proof (Nat.mul_div_le (n - 1) block ltac:(lia)). lia. Qed.

Lemma flushed_lt n : n <= flushed n + block.
Proof.
  unfold flushed. pose proof block_pos as P. pose proof (Nat.mul_succ_div_gt (n - 1) block ltac:(lia)). lia.
Qed.

Lemma flushed_full n : n = flushed n + block -> flushed (S n) = n.
Proof.
  intros H. unfold flushed in *. rewrite Nat.sub_succ, Nat.sub_0_r. pose proof block_pos as P. set (q := (n - 1) / block) in *.
  clearbody q. assert (n = (q + 1) * block) as -> by lia. rewrite Nat.div_mul by lia. lia.
Qed.

Lemma flushed_more n : n < flushed n + block -> flushed (S n) = flushed n.
Proof.
  intros H. unfold flushed in *. rewrite Nat.sub_succ, Nat.sub_0_r. f_equal. pose proof block_pos as P.
  destruct n as [|n]; [reflexivity|]. rewrite Nat.sub_succ, Nat.sub_0_r in *.
  set (q := n / block) in *. symmetry. apply (Nat.div_unique (S n) block q (S n - block * q)); [lia|].
  pose proof (Nat.mul_div_le n block ltac:(lia)) as H0. fold q in H0. lia.
Qed.

(** The state of the stream after b. *)
Definition reached (space : nat) (b : bytes) (s : ostream) : Prop :=
  let j := flushed (length b) in
  if j <=? space then s = OStream (firstn j b) (skipn j b) (space - j) false
  else failed s = true /\ on_disk s = firstn space b.

Lemma put_reached space b x s : reached space b s -> reached space (b ++ [x]) (put s x).
Proof.
  unfold reached. set (n := length b). rewrite app_length. cbn [length]. fold n.
  pose proof (flushed_le n) as L. pose proof (flushed_lt n) as U. pose proof block_pos as P.
  replace (n + 1) with (S n) by lia.
  destruct (Nat.leb_spec (flushed n) space) as [H|H].
  - intros ->. unfold put. cbn [failed pending]. rewrite skipn_length. fold n.
    destruct (Nat.eqb_spec (n - flushed n) block) as [E|E].
    + rewrite (flushed_full n) by lia. unfold WriteBuffer. cbn [failed on_disk pending room]. rewrite skipn_length. fold n.
      destruct (Nat.leb_spec n space) as [G|G].
      * replace (space - flushed n <? n - flushed n) with false by (symmetry; apply Nat.ltb_ge; lia).
        rewrite firstn_app, skipn_app. replace (n - length b) with 0 by (fold n; lia). cbn [firstn skipn].
        rewrite app_nil_r. replace (firstn n b) with b by (symmetry; apply firstn_all2; fold n; lia). replace (skipn n b) with (@nil Z) by (symmetry; apply skipn_all2; fold n; lia). cbn [app]. f_equal; [|lia].
        rewrite (firstn_all2 (skipn (flushed n) b)) by (rewrite skipn_length; fold n; lia).
        apply firstn_skipn.
      * replace (space - flushed n <? n - flushed n) with true by (symmetry; apply Nat.ltb_lt; lia).
        cbn [failed on_disk]. split; [reflexivity|].
        rewrite firstn_app. replace (space - length b) with 0 by (fold n; lia). cbn [firstn]. rewrite app_nil_r.
        replace (firstn space b) with (firstn (flushed n + (space - flushed n)) b) by (f_equal; lia).
        rewrite <- (firstn_skipn (flushed n) b) at 3. rewrite firstn_app, firstn_firstn, firstn_length. fold n.
        rewrite Nat.min_r by lia. f_equal. f_equal. lia.
    + rewrite (flushed_more n) by lia. replace (flushed n <=? space) with true by (symmetry; apply Nat.leb_le; lia).
      cbn [on_disk room]. f_equal.
      * rewrite firstn_app. replace (flushed n - length b) with 0 by (fold n; lia). cbn [firstn]. rewrite app_nil_r. reflexivity.
      * rewrite skipn_app. replace (flushed n - length b) with 0 by (fold n; lia). reflexivity.
  - intros (F & D). assert (flushed n <= flushed (S n)).
    { destruct (Nat.eq_dec n (flushed n + block)); [rewrite flushed_full by assumption; lia|rewrite flushed_more by lia; lia]. }
    replace (flushed (S n) <=? space) with false by (symmetry; apply Nat.leb_gt; lia).
    unfold put. rewrite F. split; [exact F|]. rewrite D, firstn_app. replace (space - length b) with 0 by (fold n; lia).
    cbn [firstn]. rewrite app_nil_r. reflexivity.
Qed.

Lemma stream_reached space b : reached space b (fold_left put b (OStream [] [] space false)).
Proof.
  induction b as [|x b IH] using rev_ind.
  - unfold reached. cbn [length fold_left].
    assert (flushed 0 = 0) as -> by (pose proof (flushed_le 0); lia). cbn [Nat.leb firstn skipn]. rewrite Nat.sub_0_r. reflexivity.
  - rewrite fold_left_app. cbn [fold_left]. apply put_reached. exact IH.
Qed.

Lemma write_bytes_spec space b :
  write_bytes space b = (firstn space b, flushed (length b) <=? space).
Proof.
  unfold write_bytes. pose proof (stream_reached space b) as H. unfold reached in H. set (n := length b) in *.
  pose proof (flushed_le n) as L.
  destruct (Nat.leb_spec (flushed n) space) as [G|G].
  - rewrite H. unfold close_stream. cbn [failed negb WriteBuffer on_disk pending room]. f_equal.
    replace (firstn space b) with (firstn (flushed n + (space - flushed n)) b) by (f_equal; lia).
    rewrite <- (firstn_skipn (flushed n) b) at 3. rewrite firstn_app, firstn_firstn, firstn_length. fold n.
    rewrite Nat.min_r by lia. f_equal. f_equal. lia.
  - destruct H as (F & D). unfold close_stream. rewrite F, D. reflexivity.
Qed.

(** After a failure the stream does not change. *)
Lemma put_failed b : forall s, failed s = true -> fold_left put b s = s.
Proof. induction b as [|x b IH]; intros s H; cbn [fold_left]; [reflexivity|]. unfold put at 2. rewrite H. auto. Qed.

Lemma write_messages_bytes T ms : forall s, failed s = false ->
  let s' := fold_left put (WriteDelimitedMessages T ms) s in
  write_messages T s ms = (fst (write_messages T s ms), negb (failed s'))
  /\ close_stream (fst (write_messages T s ms)) = close_stream s'.
Proof.
  induction ms as [|m ms IH]; intros s H; cbn [write_messages WriteDelimitedMessages flat_map fold_left].
  - rewrite H. auto.
  - rewrite fold_left_app. set (s1 := fold_left put (serialize_delimited T m) s).
    destruct (failed s1) eqn:E.
    + cbn zeta. rewrite put_failed by exact E. rewrite E. auto.
    + apply (IH s1 E).
Qed.

Lemma device_bytes T space ms :
  WriteDelimitedMessagesOn T space ms = write_bytes space (WriteDelimitedMessages T ms).
Proof.
  unfold WriteDelimitedMessagesOn, write_bytes.
  destruct (write_messages_bytes T ms (OStream [] [] space false) eq_refl) as (H1 & H2). cbn zeta in H1, H2.
  rewrite H1. rewrite H2. reflexivity.
Qed.

(** Several files. *)
Lemma store_ok space files : forall k files',
  store space k files = (files', true) -> nearly_complete block files files'.
Proof.
  induction files as [|(name, b) files IH]; intros k files' H; cbn [store] in H.
  - injection H as <-. constructor.
  - rewrite write_bytes_spec in H. destruct (Nat.leb_spec (flushed (length b)) (space k)) as [L|L]; [|discriminate].
    destruct (store space (S k) files) as (ws, ok) eqn:E. injection H as <- ->. constructor; [|exact (IH (S k) ws E)].
    cbn [fst snd]. split; [reflexivity|]. exists (space k). split; [reflexivity|]. pose proof (flushed_lt (length b)). lia.
Qed.

Lemma store_failed space files : forall k files',
  store space k files = (files', false) ->
  exists done name b n rest, files = done ++ (name, b) :: rest /\ n < length b /\
    exists done', files' = done' ++ [(name, firstn n b)] /\ nearly_complete block done done'.
Proof.
  induction files as [|(name, b) files IH]; intros k files' H; cbn [store] in H; [discriminate|].
  rewrite write_bytes_spec in H. destruct (Nat.leb_spec (flushed (length b)) (space k)) as [L|L].
  - destruct (store space (S k) files) as (ws, ok) eqn:E. injection H as <- ->.
    destruct (IH _ _ E) as (done & name' & b' & n & rest & -> & Hn & done' & -> & N).
    exists ((name, b) :: done), name', b', n, rest. split; [reflexivity|]. split; [exact Hn|].
    exists ((name, firstn (space k) b) :: done'). split; [reflexivity|]. constructor; [|exact N].
    cbn [fst snd]. split; [reflexivity|]. exists (space k). split; [reflexivity|]. pose proof (flushed_lt (length b)). lia.
  - injection H as <-. exists [], name, b, (space k), files. split; [reflexivity|].
    split; [pose proof (flushed_le (length b)); lia|]. exists []. split; [reflexivity|constructor].
Qed.

Lemma store_fits space files : forall k,
  (forall i name b, nth_error files i = Some (name, b) -> length b <= space (k + i)) ->
  store space k files = (files, true).
Proof.
  induction files as [|(name, b) files IH]; intros k H; cbn [store]; [reflexivity|].
  pose proof (H 0 name b eq_refl) as H0. rewrite Nat.add_0_r in H0.
  rewrite write_bytes_spec. pose proof (flushed_le (length b)).
  replace (flushed (length b) <=? space k) with true by (symmetry; apply Nat.leb_le; lia).
  rewrite IH.
  - rewrite firstn_all2 by exact H0. reflexivity.
  - intros i n' b' Hi. replace (S k + i) with (k + S i) by lia. apply (H (S i) n' b'). exact Hi.
Qed.
