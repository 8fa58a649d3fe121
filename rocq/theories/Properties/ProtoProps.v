(** C60 - C62: delimited protocol buffer files. *)
From Coq Require Import ZArith Bool List Lia.
From Verif.Model Require Import Proto.
From Verif.Spec Require Import ProtoSpec.
From Verif.Proofs Require Import ProtoProofs.
Import ListNotations.
Local Open Scope Z_scope.

(** ** C60: what is written is read back *)

Theorem C60_roundtrip T ok (ms : list (msg T)) :
  history_type T ok -> Forall ok ms ->
  ReadDelimitedVector T (WriteDelimitedMessages T ms) = Some (ms, Ok).
Proof.
  intros HT Hms. apply read_vector.
  pose proof (contents_written T ok (history_codec T ok HT) ms [] [] Ok Hms) as H.
  rewrite !app_nil_r in H. apply H. apply contents_eof. reflexivity.
Qed.

(** Different histories have different files. *)
Theorem C60_files_differ T ok (ms ms' : list (msg T)) :
  history_type T ok -> Forall ok ms -> Forall ok ms' ->
  WriteDelimitedMessages T ms = WriteDelimitedMessages T ms' -> ms = ms'.
Proof.
  intros HT H H' E.
  pose proof (C60_roundtrip T ok ms HT H) as R. pose proof (C60_roundtrip T ok ms' HT H') as R'.
  rewrite E in R. congruence.
Qed.

(** Appending one file to another (cat a b) is the file of the two histories. *)
Theorem C60_concatenation T ok (ms ms' : list (msg T)) :
  history_type T ok -> Forall ok ms -> Forall ok ms' ->
  ReadDelimitedVector T (WriteDelimitedMessages T ms ++ WriteDelimitedMessages T ms')
  = Some (ms ++ ms', Ok).
Proof.
  intros HT H H'. rewrite <- written_app. apply (C60_roundtrip T ok); [exact HT|].
  apply Forall_app. auto.
Qed.

(** Every element written is a byte. *)
Theorem C60_bytes T ok (ms : list (msg T)) :
  history_type T ok -> Forall ok ms -> Forall (fun b => 0 <= b < 256) (WriteDelimitedMessages T ms).
Proof.
  intros HT H. induction H as [|m ms Hm _ IH]; [constructor|].
  unfold WriteDelimitedMessages in *. cbn [flat_map]. apply Forall_app. split; [|exact IH].
  apply serialize_bytes. clear IH. destruct HT; [apply price_bytes|apply tick_bytes|apply side_bytes].
Qed.

(** ** C61: truncated files *)

(** Whatever the crash point [k]: exactly the messages that are whole in the first [k]
    bytes are read, and the reader reports success exactly when the file ends at a message
    boundary. *)
Theorem C61_truncated T ok (ms : list (msg T)) (k : nat) :
  history_type T ok -> Forall ok ms ->
  exists n st, whole_messages T ms k n
    /\ ReadDelimitedVector T (firstn k (WriteDelimitedMessages T ms)) = Some (firstn n ms, st)
    /\ (st = Ok \/ st = InvalidArgument)
    /\ (st = Ok <-> firstn k (WriteDelimitedMessages T ms) = WriteDelimitedMessages T (firstn n ms)).
Proof.
  intros HT H. destruct (contents_truncated T ok (history_codec T ok HT) ms k H) as (n & W & Hc).
  eexists n, _. split; [exact W|]. split; [apply read_vector; exact Hc|].
  destruct W as (W1 & W2 & _).
  assert (E : firstn (length (WriteDelimitedMessages T (firstn n ms))) (WriteDelimitedMessages T ms)
              = WriteDelimitedMessages T (firstn n ms)).
  { rewrite <- (firstn_skipn n ms) at 2. rewrite written_app, firstn_app, Nat.sub_diag, firstn_all.
    cbn [firstn]. apply app_nil_r. }
  match goal with |- context [Nat.eqb ?a ?b] => destruct (Nat.eqb_spec a b) as [Heq|Hne] end.
  - split; [auto|]. split; [intros _|reflexivity]. rewrite <- E, Heq.
    destruct (Nat.le_ge_cases k (length (WriteDelimitedMessages T ms))).
    + rewrite Nat.min_l by assumption. reflexivity.
    + rewrite Nat.min_r, firstn_all, firstn_all2 by assumption. reflexivity.
  - split; [auto|]. split; [discriminate|]. intros Hf.
    apply (f_equal (@length Z)) in Hf. rewrite firstn_length in Hf. lia.
Qed.

(** In particular a success never hides a lost tail unless the cut fell between messages. *)
Theorem C61_success_is_prefix T ok (ms ms' : list (msg T)) (k : nat) :
  history_type T ok -> Forall ok ms ->
  ReadDelimitedVector T (firstn k (WriteDelimitedMessages T ms)) = Some (ms', Ok) ->
  (exists tail, ms = ms' ++ tail)
  /\ WriteDelimitedMessages T ms' = firstn k (WriteDelimitedMessages T ms).
Proof.
  intros HT H R. destruct (C61_truncated T ok ms k HT H) as (n & st & W & R' & _ & Hst).
  rewrite R in R'. injection R' as -> <-. split.
  - exists (skipn n ms). symmetry. apply firstn_skipn.
  - symmetry. apply Hst. reflexivity.
Qed.

(** ** C62: the streaming reader *)

(** Whatever bytes are in the file (written by this program or not), the reader returns,
    and the callback sees exactly the messages the vector reader finds, in order, up to and
    including the first one on which it does not continue. *)
Theorem C62_streamed (T : message_type) {S} (reader : S -> msg T -> S * reader_status) (s : S) (b : bytes) :
  exists ms ending s' st,
    ReadDelimitedVector T b = Some (ms, ending)
    /\ ReadDelimited T reader s b = Some (s', st)
    /\ streamed reader ending s ms s' st.
Proof.
  destruct (contents_total T b) as (ms & ending & Hc).
  destruct (read_streamed T reader b ms ending Hc (Datatypes.S (length b)) s) as (s' & st & R & Hs); [lia|].
  exists ms, ending, s', st. split; [apply read_vector; exact Hc|]. split; assumption.
Qed.

(** On a written file these are the messages written. *)
Theorem C62_written T ok {S} (reader : S -> msg T -> S * reader_status) (s : S) (ms : list (msg T)) :
  history_type T ok -> Forall ok ms ->
  exists s' st, ReadDelimited T reader s (WriteDelimitedMessages T ms) = Some (s', st)
                /\ streamed reader Ok s ms s' st.
Proof.
  intros HT H.
  destruct (C62_streamed T reader s (WriteDelimitedMessages T ms)) as (ms' & e & s' & st & R & R' & Hs).
  rewrite (C60_roundtrip T ok ms HT H) in R. injection R as <- <-. eauto.
Qed.

(** The messages delivered (recorded by wrapping any callback) are a prefix of the messages
    in the file; either it is all of them, every call continued and the status tells how the
    file ended, or the last one delivered is the first on which the callback did not
    continue, and the status is what it asked for. *)
Theorem C62_delivered (T : message_type) {S} (reader : S -> msg T -> S * reader_status) (s : S) (b : bytes) :
  exists seen unseen ending s' st,
    ReadDelimitedVector T b = Some (seen ++ unseen, ending)
    /\ ReadDelimited T reader s b = Some (s', st)
    /\ ReadDelimited T (logging reader) (s, []) b = Some ((s', seen), st)
    /\ ((unseen = [] /\ continues reader s seen s' /\ st = ending)
        \/ exists pre m sp, seen = pre ++ [m] /\ continues reader s pre sp
             /\ ((reader sp m = (s', kBreak) /\ st = Ok)
                 \/ (reader sp m = (s', ReaderError) /\ st = Aborted))).
Proof.
  destruct (contents_total T b) as (ms & ending & Hc).
  pose proof (read_vector T b ms ending Hc) as RV.
  destruct (read_streamed T reader b ms ending Hc (Datatypes.S (length b)) s) as (s' & st & R & Hs); [lia|].
  destruct (read_streamed T (logging reader) b ms ending Hc (Datatypes.S (length b)) (s, []))
    as ([s2 seen] & st2 & R2 & Hs2); [lia|].
  destruct (streamed_logging reader ending ms s [] s' st Hs s2 seen st2 Hs2)
    as (-> & -> & unseen & Eu & new & -> & H).
  cbn [app] in *. rewrite Eu in RV.
  exists new, unseen, ending, s', st. repeat split; assumption.
Qed.

(** ** Non-vacuity *)

(** A price record with all fields, one with a negative timestamp, no price and a negative
    zero volume, and an empty one. *)
Definition ex_prices : list (msg PriceRecordType) :=
  [PriceMsg (Some 1483228800) (Some 1148846080) (Some 1065353216);
   PriceMsg (Some (-1)) None (Some (2 ^ 31));
   PriceMsg None None None].

Lemma C60_ex_meets : Forall price_message ex_prices.
Proof. repeat constructor; cbn; unfold is_int64, is_bits32; lia. Qed.

Lemma C60_ex_file : WriteDelimitedMessages PriceRecordType ex_prices
  = [16; 8; 128; 141; 161; 195; 5; 21; 0; 0; 122; 68; 29; 0; 0; 128; 63;
     16; 8; 255; 255; 255; 255; 255; 255; 255; 255; 255; 1; 29; 0; 0; 0; 128;
     0].
Proof. vm_compute. reflexivity. Qed.

(** Cut after 20 bytes: the first record and an error; after 17 bytes: the first record. *)
Lemma C61_ex_error :
  ReadDelimitedVector PriceRecordType (firstn 20 (WriteDelimitedMessages PriceRecordType ex_prices))
  = Some (firstn 1 ex_prices, InvalidArgument).
Proof. vm_compute. reflexivity. Qed.
Lemma C61_ex_boundary :
  ReadDelimitedVector PriceRecordType (firstn 17 (WriteDelimitedMessages PriceRecordType ex_prices))
  = Some (firstn 1 ex_prices, Ok).
Proof. vm_compute. reflexivity. Qed.

(** A callback that stops at the second message. *)
Lemma C62_ex_break :
  ReadDelimited PriceRecordType
    (fun (n : nat) (_ : msg PriceRecordType) => (S n, if Nat.eqb n 1 then kBreak else kContinue)) O
    (WriteDelimitedMessages PriceRecordType ex_prices) = Some (2%nat, Ok).
Proof. vm_compute. reflexivity. Qed.
