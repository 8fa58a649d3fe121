(** C83: the readers accept exactly the files in the protocol buffer wire format. *)
From Coq Require Import ZArith Bool List Lia.
From Verif.Model Require Import Proto.
From Verif.Spec Require Import ProtoSpec WireSpec.
From Verif.Proofs Require Import ProtoProofs WireProofs.
From Verif.Properties Require Import ProtoProps.
Import ListNotations.
Local Open Scope Z_scope.

Section Wire.
  Context (T : message_type) (means : list (Z * wire_value) -> msg T -> Prop) (HT : meaning T means).

  (** Reading succeeds with ms exactly on the files of ms. *)
  Theorem C83_accepts (b : bytes) (ms : list (msg T)) : is_bytes b ->
    ReadDelimitedVector T b = Some (ms, Ok) <-> file_of means b ms.
  Proof.
    intros Hb. unfold ReadDelimitedVector, ReadDelimited.
    destruct (read_loop_spec T means (S (length b)) HT [] b Hb ltac:(lia)) as (ms0 & st & -> & _ & H1 & H2). cbn [app]. split.
    - intros H. injection H as -> ->. auto.
    - intros H. destruct (H2 ms H) as [-> ->]. reflexivity.
  Qed.

  (** Every other file is reported as damaged. *)
  Theorem C83_rejects (b : bytes) : is_bytes b -> (forall ms, ~ file_of means b ms) ->
    exists ms, ReadDelimitedVector T b = Some (ms, InvalidArgument).
  Proof.
    intros Hb N. unfold ReadDelimitedVector, ReadDelimited.
    destruct (read_loop_spec T means (S (length b)) HT [] b Hb ltac:(lia)) as (ms0 & st & -> & [-> | ->] & H1 & _); [|eauto].
    exfalso. apply (N ms0). auto.
  Qed.

  Theorem C83_unambiguous (b : bytes) (ms ms' : list (msg T)) : is_bytes b ->
    file_of means b ms -> file_of means b ms' -> ms = ms'.
  Proof. intros Hb H1 H2. apply C83_accepts in H1, H2; auto. congruence. Qed.

  (** A written file is in the format. *)
  Theorem C83_written ok (ms : list (msg T)) : history_type T ok -> Forall ok ms ->
    file_of means (WriteDelimitedMessages T ms) ms.
  Proof.
    intros Hh Hok. apply C83_accepts; [eapply C60_bytes; eassumption|]. eapply C60_roundtrip; eassumption.
  Qed.
End Wire.

(** A record as another writer might produce it: a redundant digit in the size, the volume
    first and twice, an unknown field; and a damaged one: field number 0. *)
Definition wp_file : bytes := [147; 0;  29; 0; 0; 0; 0;  8; 5;  122; 2; 1; 2;  29; 0; 0; 128; 63;  128; 1; 7].
Lemma C83_ex :
  @file_of PriceRecordType means_price wp_file [PriceMsg (Some 5) None (Some 1065353216)] /\
  (forall ms, ~ @file_of PriceRecordType means_price [2; 0; 1] ms).
Proof.
  assert (B : is_bytes wp_file /\ is_bytes [2; 0; 1]) by (split; repeat constructor; lia). destruct B as [B1 B2]. split.
  - apply (C83_accepts PriceRecordType means_price meaning_price wp_file); [exact B1|]. vm_compute. reflexivity.
  - intros ms H. apply (C83_accepts PriceRecordType means_price meaning_price _ ms B2) in H. vm_compute in H. discriminate.
Qed.
