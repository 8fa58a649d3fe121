(** C39-C41: side input lookup.  Any machine. *)
From Coq Require Import ZArith Bool List Lia.
From Verif.Model Require Import Outcome Machine Types Search SideInput.
From Verif.Spec Require Import SideInputSpec.
From Verif.Proofs Require Import Base SideInputProofs.
Import ListNotations.
Local Open Scope Z_scope.

Section Props.
  Context {M : machine}.

  (** Construction succeeds on every good history; with asserts it succeeds only on these. *)
  Theorem C39_accepts h : good_side_history h -> exists si, NewSideInput h = Done si.
  Proof. intros G. destruct (NewSideInput_good h G) as (n & E & _). eauto. Qed.

  Theorem C39_rejects h si :
    asserts_on = true -> NewSideInput h = Done si -> Z.of_nat (length h) < 2 ^ 31 -> good_side_history h.
  Proof. apply NewSideInput_accepts. Qed.

  (** ** C39 The lookup finds the last record at or before t. *)
  Theorem C39_lookup h si t :
    good_side_history h -> NewSideInput h = Done si -> latest_index h t (GetSideInputIndex si t).
  Proof.
    intros G H. destruct (NewSideInput_good h G) as (n & E & _). rewrite E in H. injection H as <-.
    apply GetSideInputIndex_latest; auto.
  Qed.

  (** The specification determines the index. *)
  Theorem C39_unique h t i j : latest_index h t i -> latest_index h t j -> i = j.
  Proof. apply latest_index_unique. Qed.

  (** ** C40 A hint found for an earlier time does not change the answer (and the hinted
      lookup neither fails nor reads out of bounds). *)
  Theorem C40_hint h si t1 t2 :
    good_side_history h -> NewSideInput h = Done si -> t1 <= t2 ->
    GetSideInputIndexHint si t2 (GetSideInputIndex si t1) = Done (GetSideInputIndex si t2).
  Proof.
    intros G H Ht. destruct (NewSideInput_good h G) as (n & E & _). rewrite E in H. injection H as <-.
    apply Hint_same; auto.
    destruct (GetSideInputIndex_latest n h t1 G) as [[-> _]|(H0 & r & Hr & Hle & _)]; [left; reflexivity|].
    right. split; [exact H0|]. exists r. split; [exact Hr|lia].
  Qed.

  (** Also for any chain of hinted lookups at non-decreasing times, starting from -1. *)
  Fixpoint hinted (si : side_input) (prev : Z) (ts : list Z) : outcome (list Z) :=
    match ts with
    | [] => Done []
    | t :: ts' =>
      do i <- GetSideInputIndexHint si t prev ;
      do is <- hinted si i ts' ;
      Done (i :: is)
    end.

  Theorem C40_hint_chain h si ts :
    good_side_history h -> NewSideInput h = Done si ->
    (forall i j t t', nth_error ts i = Some t -> nth_error ts j = Some t' -> (i < j)%nat -> t <= t') ->
    hinted si (-1) ts = Done (map (GetSideInputIndex si) ts).
  Proof.
    intros G H Ho.
    assert (K : forall ts prev, (prev = -1 \/ exists t0, prev = GetSideInputIndex si t0 /\ forall t, In t ts -> t0 <= t) ->
                (forall i j t t', nth_error ts i = Some t -> nth_error ts j = Some t' -> (i < j)%nat -> t <= t') ->
                hinted si prev ts = Done (map (GetSideInputIndex si) ts)).
    { clear ts Ho. induction ts as [|t ts IH]; intros prev Hp Ho; [reflexivity|].
      cbn [hinted]. assert (E : GetSideInputIndexHint si t prev = Done (GetSideInputIndex si t)).
      { destruct Hp as [->|(t0 & -> & Hle)]; [reflexivity|]. apply (C40_hint h); auto. apply Hle. left. reflexivity. }
      rewrite E. cbn [bind]. rewrite IH; [reflexivity| |].
      - right. exists t. split; [reflexivity|]. intros t' Ht'. apply In_nth_error in Ht' as [k Hk].
        apply (Ho 0%nat (S k)); auto. lia.
      - intros i j a b Ha Hb Hij. apply (Ho (S i) (S j)); auto. lia. }
    apply K; auto.
  Qed.

  (** ** C41 Signals and timestamps are returned as stored. *)
  Theorem C41_signals h si i r :
    good_side_history h -> NewSideInput h = Done si -> nth_error h i = Some r ->
    GetNumberOfRecords si = Z.of_nat (length h) /\
    GetNumberOfSignals si = Z.of_nat (length (sr_signal r)) /\
    GetSideInputTimestamp si (Z.of_nat i) = Done (sr_timestamp_sec r) /\
    (forall v, GetSideInputSignals si (Z.of_nat i) v = Done (v ++ sr_signal r)) /\
    (forall j x, nth_error (sr_signal r) j = Some x ->
       GetSideInputSignal si (Z.of_nat i) (Z.of_nat j) = Done x).
  Proof.
    intros G H Hi. destruct (NewSideInput_good h G) as (n & E & Hn). rewrite E in H. injection H as <-.
    split; [unfold GetNumberOfRecords; cbn; rewrite map_length; reflexivity|].
    split; [cbn; symmetry; apply Hn; apply nth_error_In in Hi; exact Hi|].
    split; [apply at_nth; [lia|rewrite Nat2Z.id; exact Hi]|].
    split; [intros v; apply Signals_all; auto|].
    intros j x Hj. apply (Signal_nth n h i r j x); auto.
  Qed.

  (** The hypotheses are met: two records with two signals each. *)
  Lemma side_hypotheses_met (a b c d : flt) :
    good_side_history [SideRecord 100 [a; b]; SideRecord 250 [c; d]].
  Proof.
    split.
    - discriminate.
    - intros r [<-|[<-|[]]]; cbn; lia.
    - intros [|[|[|?]]] [|[|[|?]]] r r' E1 E2 L; cbn in *; try lia; try discriminate.
      injection E1 as <-. injection E2 as <-. cbn. lia.
    - intros r r' [<-|[<-|[]]] [<-|[<-|[]]]; reflexivity.
    - cbn. lia.
  Qed.
End Props.

Print Assumptions C40_hint_chain.
Print Assumptions C41_signals.
