(** Basic lemmas about outcomes. *)
From Coq Require Import ZArith Bool List Lia.
From Verif.Model Require Import Outcome Machine.
Import ListNotations.

Lemma bind_done {A B} (x : outcome A) (f : A -> outcome B) b :
  bind x f = Done b <-> exists a, x = Done a /\ f a = Done b.
Proof.
  split.
  - destruct x; cbn; intros H; try discriminate. eauto.
  - intros (a & -> & H). exact H.
Qed.

Lemma omap_done {A B} (f : A -> B) (x : outcome A) b :
  omap f x = Done b <-> exists a, x = Done a /\ f a = b.
Proof.
  unfold omap. rewrite bind_done. split; intros (a & H1 & H2); exists a; split; congruence.
Qed.

Lemma bind_assoc {A B C} (x : outcome A) (f : A -> outcome B) (g : B -> outcome C) :
  bind (bind x f) g = bind x (fun a => bind (f a) g).
Proof. destruct x; reflexivity. Qed.

Lemma bind_ext {A B} (x : outcome A) (f g : A -> outcome B) :
  (forall a, x = Done a -> f a = g a) -> bind x f = bind x g.
Proof. destruct x; cbn; auto. Qed.

Lemma bind_ret {A} (x : outcome A) : bind x Done = x.
Proof. destruct x; reflexivity. Qed.

Lemma foldM_app {A S} (f : S -> A -> outcome S) l1 l2 s :
  foldM f s (l1 ++ l2) = bind (foldM f s l1) (fun s' => foldM f s' l2).
Proof.
  revert s; induction l1 as [|a l1 IH]; intros s; cbn; [reflexivity|].
  rewrite bind_assoc. apply bind_ext; intros; apply IH.
Qed.

Lemma foldM_snoc {A S} (f : S -> A -> outcome S) l a s :
  foldM f s (l ++ [a]) = bind (foldM f s l) (fun s' => f s' a).
Proof.
  rewrite foldM_app. apply bind_ext; intros; cbn. apply bind_ret.
Qed.

(** Invariant rule for foldM. *)
Lemma foldM_inv {A S} (f : S -> A -> outcome S) (P : S -> Prop) l s s' :
  (forall a s s', In a l -> P s -> f s a = Done s' -> P s') ->
  P s -> foldM f s l = Done s' -> P s'.
Proof.
  revert s; induction l as [|a l IH]; cbn; intros s Hstep Hs H.
  - injection H as <-; exact Hs.
  - apply bind_done in H as (s1 & H1 & H2).
    apply (IH s1).
    + intros a' t t' Hin. apply (Hstep a' t t'). right; exact Hin.
    + apply (Hstep a s s1); auto.
    + exact H2.
Qed.

Section Assert.
  Context {M : machine}.
  Lemma assert_true : assert_ true = Done tt.
  Proof. unfold assert_; destruct asserts_on; reflexivity. Qed.

  Lemma assert_done b u : assert_ b = Done u <-> (asserts_on = false \/ b = true).
  Proof.
    unfold assert_. destruct u, asserts_on, b; split; intros H; auto; try discriminate.
    destruct H; discriminate.
  Qed.

  Lemma assert_cases b : assert_ b = Done tt \/ assert_ b = AssertFail.
  Proof. unfold assert_; destruct asserts_on, b; auto. Qed.
End Assert.

(** Inversion of hypotheses of the form [bind .. = Done ..]. *)
Ltac inv_done :=
  repeat match goal with
  | H : bind (assert_ _) _ = Done _ |- _ =>
    let u := fresh "u" in let Ha := fresh "Hassert" in
    apply bind_done in H as (u & Ha & H); destruct u
  | H : bind _ _ = Done _ |- _ =>
    let a := fresh "r" in let Ha := fresh "Hr" in
    apply bind_done in H as (a & Ha & H)
  | H : Done _ = Done _ |- _ => injection H as H; try subst
  | H : _ = Done _ |- _ => discriminate H
  end.
