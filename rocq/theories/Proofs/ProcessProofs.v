(** The process of a batch: main thread and tasks. *)
From Coq Require Import ZArith Bool List Lia String.
From Verif.Model Require Import Outcome Machine Types Account History SideInput Indicators TimeUtil Eval Batch.
From Verif.Spec Require Import BatchSpec.
From Verif.Proofs Require Import Base ThreadProofs.
Import ListNotations.

Section Lists.
  Context {A : Type}.
  Lemma set_nth_map {B} (f : A -> B) i x l y : nth_error l i = Some y -> f x = f y -> map f (set_nth i x l) = map f l.
  Proof.
    revert i. induction l as [|a l IH]; intros [|i] H E; cbn in *; try discriminate.
    - injection H as ->. rewrite E. reflexivity.
    - f_equal. apply IH; auto.
  Qed.

  Lemma set_nth_Forall (P : A -> Prop) i x l : Forall P l -> P x -> Forall P (set_nth i x l).
  Proof. intros H. revert i. induction H as [|a l Ha Hl IH]; intros [|i] Hx; cbn; constructor; auto. Qed.

  Lemma set_nth_length i (x : A) l : List.length (set_nth i x l) = List.length l.
  Proof. revert i. induction l as [|a l IH]; intros [|i]; cbn; auto. Qed.

  Lemma nth_set_nth i (x : A) l j : nth_error (set_nth i x l) j =
    if Nat.eqb i j then (if nth_error l j then Some x else None) else nth_error l j.
  Proof.
    revert i j. induction l as [|a l IH]; intros [|i] [|j]; cbn; try reflexivity.
    - destruct (Nat.eqb i j); reflexivity.
    - apply IH.
  Qed.
End Lists.

Section Process.
  Context {M : machine}.
  Context (cfg : account_config) (ec : evaluation_config) (history : list ohlc_tick)
          (side : option side_input).
  Local Notation ts := (tsteps cfg ec history side).
  Local Notation step := (batch_step cfg ec history side).

  Definition te_ends (te : trader_emitter) (o : outcome evaluation_result) : Prop :=
    exists m, ts te m (Top te 0%Z []) = Ended te o.

  Definition slot_ok (s : slot) : Prop := exists m, s_thread s = ts (s_emitter s) m (Top (s_emitter s) 0%Z []).

  Definition has_result (s : slot) (r : evaluation_result) : Prop := s_thread s = Ended (s_emitter s) (Done r).

  Record inv (es : list trader_emitter) (p : process) : Prop := {
    inv_es : map s_emitter (p_slots p) ++ p_todo p = es;
    inv_ok : Forall slot_ok (p_slots p);
    inv_res : forall i r, nth_error (p_results p) i = Some r -> exists s, nth_error (p_slots p) i = Some s /\ has_result s r
  }.

  Definition good (es : list trader_emitter) (o : outcome (list evaluation_result)) : Prop :=
    match o with
    | Done rs => Forall2 (fun te r => te_ends te (Done r)) es rs
    | AssertFail => exists te, In te es /\ te_ends te AssertFail
    | Undefined => exists te, In te es /\ te_ends te Undefined
    | Thrown => exists te, In te es /\ te_ends te Thrown
    | Diverged => False
    end.

  Definition invS (es : list trader_emitter) (st : batch_state) : Prop :=
    match st with Alive p => inv es p | Over o => good es o end.

  Lemma slot_step_ok s : slot_ok s -> slot_ok (slot_step cfg ec history side s).
  Proof. intros [m H]. exists (S m). cbn [slot_step s_thread s_emitter]. rewrite H, tsteps_S. reflexivity. Qed.

  Lemma slot_in es p i s : inv es p -> nth_error (p_slots p) i = Some s -> In (s_emitter s) es /\ slot_ok s.
  Proof.
    intros I H. apply nth_error_In in H. split.
    - rewrite <- (inv_es _ _ I). apply in_or_app. left. apply in_map. exact H.
    - exact (proj1 (Forall_forall _ _) (inv_ok _ _ I) _ H).
  Qed.

  Lemma ended_ends s o : slot_ok s -> s_thread s = Ended _ o -> te_ends (s_emitter s) o.
  Proof. intros [m H] E. exists m. congruence. Qed.


  (** The step of a thread that has not ended keeps the invariant. *)
  Lemma run_slot_inv es p i s :
    inv es p -> nth_error (p_slots p) i = Some s -> (forall o, s_thread s <> Ended _ o) ->
    invS es (run_slot cfg ec history side p i s).
  Proof.
    intros I H NE. destruct (slot_in _ _ _ _ I H) as [Hin Hok].
    pose proof (slot_step_ok _ Hok) as Hok'.
    assert (A : inv es {| p_todo := p_todo p; p_slots := set_nth i (slot_step cfg ec history side s) (p_slots p); p_results := p_results p |}).
    { constructor; cbn [p_slots p_todo p_results].
      - rewrite (set_nth_map s_emitter _ _ _ _ H); [apply (inv_es _ _ I)|reflexivity].
      - apply set_nth_Forall; [apply (inv_ok _ _ I)|exact Hok'].
      - intros j r Hr. destruct (inv_res _ _ I _ _ Hr) as (s' & Hs' & R). rewrite nth_set_nth.
        destruct (Nat.eqb_spec i j) as [->|Hne]; [|exists s'; auto].
        exfalso. rewrite H in Hs'. injection Hs' as ->. exact (NE _ R). }
    unfold run_slot. destruct (s_thread (slot_step cfg ec history side s)) as [| | | | | |[r| | | |]] eqn:E; try exact A.
    - exists (s_emitter s). split; [exact Hin|]. exact (ended_ends _ _ Hok' E).
    - exists (s_emitter s). split; [exact Hin|]. exact (ended_ends _ _ Hok' E).
  Qed.

  Lemma main_inv es b p : inv es p -> invS es (main_step cfg ec history side b p).
  Proof.
    intros I. unfold main_step. destruct (p_todo p) as [|te tes] eqn:Et.
    2:{ constructor; cbn [p_slots p_todo p_results].
        - rewrite map_app, <- app_assoc. cbn [map new_slot s_emitter app]. rewrite <- Et. apply (inv_es _ _ I).
        - apply Forall_app. split; [apply (inv_ok _ _ I)|]. constructor; [|constructor]. exists 0%nat. reflexivity.
        - intros i r Hr. destruct (inv_res _ _ I _ _ Hr) as (s & Hs & R). exists s. split; [|exact R].
          rewrite nth_error_app1; [exact Hs|]. apply nth_error_Some. congruence. }
    destruct (nth_error (p_slots p) (List.length (p_results p))) as [s|] eqn:En.
    - destruct (slot_in _ _ _ _ I En) as [Hin Hok].
      destruct (s_thread s) as [| | | | | |[r| | | |]] eqn:E;
        try (destruct (s_deferred s); [apply run_slot_inv; [exact I|exact En|intros o Ho; rewrite E in Ho; discriminate]|exact I]).
      + constructor; cbn [p_slots p_todo p_results].
        * rewrite <- Et. apply (inv_es _ _ I).
        * apply (inv_ok _ _ I).
        * intros i r' Hr. destruct (Nat.lt_ge_cases i (List.length (p_results p))) as [L|L].
          -- rewrite nth_error_app1 in Hr by exact L. apply (inv_res _ _ I _ _ Hr).
          -- rewrite nth_error_app2 in Hr by exact L. destruct (i - List.length (p_results p))%nat as [|j] eqn:Ei; [|destruct j; discriminate].
             injection Hr as <-. replace i with (List.length (p_results p)) by lia. exists s. auto.
      + exists (s_emitter s). split; [exact Hin|]. exact (ended_ends _ _ Hok E).
      + exists (s_emitter s). split; [exact Hin|]. exact (ended_ends _ _ Hok E).
      + exists (s_emitter s). split; [exact Hin|]. exact (ended_ends _ _ Hok E).
      + exact I.
    - cbn [invS good]. pose proof (inv_es _ _ I) as Ees. rewrite Et, app_nil_r in Ees. subst es.
      pose proof (inv_ok _ _ I) as Ok. pose proof (inv_res _ _ I) as Re. apply nth_error_None in En.
      revert En Ok Re. generalize (p_results p). generalize (p_slots p).
      induction l as [|s sl IH]; intros rs L Ok Re.
      + destruct rs as [|r rs]; [constructor|]. destruct (Re 0%nat r eq_refl) as (s & Hs & _). discriminate.
      + destruct rs as [|r rs]; [cbn in L; lia|]. apply Forall_cons_iff in Ok as [Ok1 Ok2]. cbn [map]. constructor.
        * destruct (Re 0%nat r eq_refl) as (s' & Hs & R). injection Hs as <-. exact (ended_ends _ _ Ok1 R).
        * apply IH; [cbn in L; lia|exact Ok2|]. intros i r' Hr. apply (Re (S i) r' Hr).
  Qed.

  Lemma step_inv es d st : invS es st -> invS es (step d st).
  Proof.
    intros I. destruct st as [p|o]; [|exact I]. destruct d as [b|i]; [apply main_inv; exact I|].
    cbn [batch_step]. unfold task_turn. destruct (nth_error (p_slots p) i) as [s|] eqn:En; [|exact I].
    destruct (s_deferred s); [exact I|].
    destruct (s_thread s) eqn:E; try exact I; (apply run_slot_inv; [exact I|exact En|intros o Ho; rewrite E in Ho; discriminate]).
  Qed.

  Lemma start_inv es : invS es (batch_start es).
  Proof. constructor; cbn; [reflexivity|constructor|]. intros [|i] r H; discriminate. Qed.

  Lemma run_inv es sched st : invS es st -> invS es (batch_run cfg ec history side sched st).
  Proof. revert st. induction sched as [|d sched IH]; intros st I; [exact I|]. apply IH, step_inv, I. Qed.

  (** *** Termination. *)
  Definition costs (te : trader_emitter) (k : nat) : Prop := exists r, ts te k (Top te 0%Z []) = Ended te (Done r).
  Definition slot_costs (s : slot) (k : nat) : Prop := exists r, ts (s_emitter s) k (s_thread s) = Ended _ (Done r).

  Definition meas (p : process) (n : nat) : Prop :=
    exists cs ks, Forall2 costs (p_todo p) cs /\ Forall2 slot_costs (p_slots p) ks /\
      (List.length (p_results p) <= List.length (p_slots p))%nat /\
      n = (list_sum cs + 3 * List.length (p_todo p) + list_sum ks + (List.length (p_slots p) - List.length (p_results p)))%nat.

  Definition measS (st : batch_state) (n : nat) : Prop :=
    match st with Alive p => exists n', meas p n' /\ n = S n' | Over o => exists rs, o = Done rs end.

  Lemma set_nth_costs i s s' ks sl :
    Forall2 slot_costs sl ks -> nth_error sl i = Some s ->
    (forall k, slot_costs s k -> exists k', (S k' = k)%nat /\ slot_costs s' k') ->
    exists ks', Forall2 slot_costs (set_nth i s' sl) ks' /\ (S (list_sum ks') = list_sum ks)%nat.
  Proof.
    intros F. revert i. induction F as [|a k sl ks Ha Hl IH]; intros [|i] H C; cbn in H; try discriminate.
    - injection H as ->. destruct (C k Ha) as (k' & E & Hk). exists (k' :: ks). split; [constructor; auto|]. unfold list_sum in *. cbn [fold_right]. lia.
    - destruct (IH i H C) as (ks' & F' & E). exists (k :: ks'). split; [constructor; auto|]. unfold list_sum in *. cbn [fold_right]. lia.
  Qed.

  Lemma run_slot_meas p n i s :
    meas p n -> nth_error (p_slots p) i = Some s -> (forall o, s_thread s <> Ended _ o) ->
    exists n', (n' < S n)%nat /\ measS (run_slot cfg ec history side p i s) n'.
  Proof.
    intros (cs & ks & Hc & Hk & Hl & ->) Hn NE.
    assert (C : forall k, slot_costs s k -> exists k', (S k' = k)%nat /\ slot_costs (slot_step cfg ec history side s) k').
    { intros [|k] [r Hr]; [exfalso; exact (NE _ Hr)|]. exists k. split; [reflexivity|]. exists r. exact Hr. }
    destruct (set_nth_costs _ _ _ _ _ Hk Hn C) as (ks' & Hk' & E).
    assert (A : exists n', (n' < S (list_sum cs + 3 * List.length (p_todo p) + list_sum ks + (List.length (p_slots p) - List.length (p_results p))))%nat /\
      measS (Alive {| p_todo := p_todo p; p_slots := set_nth i (slot_step cfg ec history side s) (p_slots p); p_results := p_results p |}) n').
    { eexists. split; [|exists (list_sum cs + 3 * List.length (p_todo p) + list_sum ks' + (List.length (p_slots p) - List.length (p_results p)))%nat; split; [|reflexivity]; exists cs, ks'; cbn [p_todo p_slots p_results]; rewrite set_nth_length; auto].
      lia. }
    unfold run_slot.
    destruct (s_thread (slot_step cfg ec history side s)) as [| | | | | |[r| | | |]] eqn:E'; try exact A; exfalso.
    - assert (Hs : exists k, slot_costs s k).
      { clear - Hk Hn. revert i Hn. induction Hk as [|a k sl ks Ha Hl IH]; intros [|i] Hn; cbn in Hn; try discriminate; [|eauto].
        injection Hn as ->. eauto. }
      destruct Hs as [k Hs]. destruct (C _ Hs) as (k' & _ & r & Hr). rewrite E', tsteps_ended in Hr. discriminate.
    - assert (Hs : exists k, slot_costs s k).
      { clear - Hk Hn. revert i Hn. induction Hk as [|a k sl ks Ha Hl IH]; intros [|i] Hn; cbn in Hn; try discriminate; [|eauto].
        injection Hn as ->. eauto. }
      destruct Hs as [k Hs]. destruct (C _ Hs) as (k' & _ & r & Hr). rewrite E', tsteps_ended in Hr. discriminate.
  Qed.

  Lemma costs_nth sl ks i s : Forall2 slot_costs sl ks -> nth_error sl i = Some s -> exists k, slot_costs s k.
  Proof.
    intros Hk. revert i. induction Hk as [|a k sl ks Ha Hl IH]; intros [|i] Hn; cbn in Hn; try discriminate; [|eauto].
    injection Hn as ->. eauto.
  Qed.

  Definition waits (p : process) : Prop :=
    p_todo p = [] /\ exists s, nth_error (p_slots p) (List.length (p_results p)) = Some s /\ s_deferred s = false /\
      forall o, s_thread s <> Ended _ o.

  (** The main thread makes progress unless it waits for a running thread. *)
  Lemma main_meas b p n : meas p n ->
    (exists n', (n' < S n)%nat /\ measS (main_step cfg ec history side b p) n') \/
    (waits p /\ main_step cfg ec history side b p = Alive p).
  Proof.
    intros Hm. pose proof Hm as (cs & ks & Hc & Hk & Hl & En). unfold main_step, waits.
    destruct (p_todo p) as [|te tes] eqn:Et.
    2:{ left. inversion Hc as [|? c ? cs' C1 C2]; subst.
        eexists. split; [|exists (list_sum cs' + 3 * List.length tes + (list_sum ks + c) + (List.length (p_slots p) + 1 - List.length (p_results p)))%nat; split; [|reflexivity]; exists cs', (ks ++ [c]); cbn [p_todo p_slots p_results];
          rewrite app_length, list_sum_app; replace (list_sum [c]) with c by (unfold list_sum; cbn [fold_right]; lia); cbn [List.length]].
        - unfold list_sum in *. cbn [fold_right List.length] in *. lia.
        - split; [exact C2|]. split; [|split; [lia|reflexivity]].
          apply Forall2_app; [exact Hk|]. constructor; [exact C1|constructor]. }
    destruct (nth_error (p_slots p) (List.length (p_results p))) as [s|] eqn:Es.
    2:{ left. exists 0%nat. split; [lia|]. eexists; reflexivity. }
    destruct (costs_nth _ _ _ _ Hk Es) as (k & r0 & Hr0).
    assert (L : (List.length (p_results p) < List.length (p_slots p))%nat) by (apply nth_error_Some; congruence).
    assert (Run : (forall o, s_thread s <> Ended _ o) ->
      (exists n', (n' < S n)%nat /\ measS (if s_deferred s then run_slot cfg ec history side p (List.length (p_results p)) s else Alive p) n') \/
      ((([] : list trader_emitter) = [] /\ exists s0, Some s = Some s0 /\ s_deferred s0 = false /\ forall o, s_thread s0 <> Ended _ o) /\
       (if s_deferred s then run_slot cfg ec history side p (List.length (p_results p)) s else Alive p) = Alive p)).
    { intros NE. destruct (s_deferred s) eqn:Ed.
      - left. apply run_slot_meas; assumption.
      - right. split; [|reflexivity]. split; [reflexivity|]. exists s. auto. }
    destruct (s_thread s) as [| | | | | |[r| | | |]] eqn:E; try (apply Run; intros o Ho; discriminate);
      try (exfalso; rewrite tsteps_ended in Hr0; discriminate).
    left. eexists. split; [|exists (n - 1)%nat; split; [|reflexivity]; exists cs, ks; cbn [p_todo p_slots p_results]; rewrite app_length; cbn [List.length]].
    - lia.
    - split; [exact Hc|]. split; [exact Hk|]. split; [lia|]. cbn [List.length] in *. lia.
  Qed.

  Lemma task_meas i p n : meas p n ->
    (exists n', (n' < S n)%nat /\ measS (task_turn cfg ec history side i p) n') \/ task_turn cfg ec history side i p = Alive p.
  Proof.
    intros Hm. unfold task_turn. destruct (nth_error (p_slots p) i) as [s|] eqn:Es; [|right; reflexivity].
    destruct (s_deferred s); [right; reflexivity|].
    destruct (s_thread s) eqn:E; try (right; reflexivity);
      (left; apply run_slot_meas; [exact Hm|exact Es|intros o Ho; rewrite E in Ho; discriminate]).
  Qed.

  Lemma step_meas d st n : measS st n -> step d st = st \/ exists n', (n' < n)%nat /\ measS (step d st) n'.
  Proof.
    destruct st as [p|o]; [|intros _; left; reflexivity]. intros (n' & Hm & ->). destruct d as [b|i]; cbn [batch_step].
    - destruct (main_meas b p n' Hm) as [H|[_ H]]; auto.
    - destruct (task_meas i p n' Hm) as [H|H]; auto.
  Qed.

  (** Some thread can always make progress. *)
  Lemma enabled p n : measS (Alive p) n ->
    (forall b, exists n', (n' < n)%nat /\ measS (step (MainTurn b) (Alive p)) n') \/
    exists i, (i < List.length (p_slots p))%nat /\ exists n', (n' < n)%nat /\ measS (step (TaskTurn i) (Alive p)) n'.
  Proof.
    intros (n' & Hm & ->).
    destruct (main_meas true p n' Hm) as [H1|[W _]].
    - destruct (main_meas false p n' Hm) as [H2|[W _]].
      + left. intros []; assumption.
      + right. destruct W as (_ & s & Hs & Hd & NE). exists (List.length (p_results p)).
        split; [apply nth_error_Some; congruence|]. cbn [batch_step]. unfold task_turn. rewrite Hs, Hd.
        destruct (s_thread s) eqn:E; try (apply run_slot_meas; [exact Hm|exact Hs|intros o Ho; rewrite E in Ho; discriminate]).
        exfalso. exact (NE _ eq_refl).
    - right. destruct W as (_ & s & Hs & Hd & NE). exists (List.length (p_results p)).
      split; [apply nth_error_Some; congruence|]. cbn [batch_step]. unfold task_turn. rewrite Hs, Hd.
      destruct (s_thread s) eqn:E; try (apply run_slot_meas; [exact Hm|exact Hs|intros o Ho; rewrite E in Ho; discriminate]).
      exfalso. exact (NE _ eq_refl).
  Qed.

  Lemma start_meas es : (forall te, In te es -> exists r, te_ends te (Done r)) -> exists n, measS (batch_start es) n.
  Proof.
    intros H. assert (C : exists cs, Forall2 costs es cs).
    { induction es as [|te es IH]; [exists []; constructor|]. destruct (H te (or_introl eq_refl)) as (r & m & Hm).
      destruct (IH (fun t h => H t (or_intror h))) as [cs Hcs]. exists (m :: cs). constructor; [exists r; exact Hm|exact Hcs]. }
    destruct C as [cs Hcs]. eexists. eexists. split; [|reflexivity]. exists cs, []. cbn [p_todo p_slots p_results].
    split; [exact Hcs|]. split; [constructor|]. split; [cbn; lia|reflexivity].
  Qed.

  (** *** Fair schedules. *)
  Section Fair.
    Context (es : list trader_emitter) (f : nat -> decision) (F : fair (List.length es) f).
    Local Notation state k := (batch_run cfg ec history side (first_decisions f k) (batch_start es)).

    Lemma state_S k : state (S k) = step (f k) (state k).
    Proof. unfold first_decisions. rewrite seq_S, map_app. unfold batch_run. rewrite fold_left_app. reflexivity. Qed.

    Lemma state_inv k : invS es (state k).
    Proof. apply run_inv, start_inv. Qed.

    Lemma state_between i j n : (i <= j)%nat -> measS (state i) n ->
      state j = state i \/ exists j' n', (i <= j')%nat /\ (n' < n)%nat /\ measS (state j') n'.
    Proof.
      intros L H. induction j as [|j IH].
      - replace i with 0%nat by lia. left. reflexivity.
      - destruct (Nat.eq_dec i (S j)) as [->|Hne]; [left; reflexivity|].
        destruct (IH ltac:(lia)) as [E|X]; [|right; exact X].
        rewrite <- E in H. destruct (step_meas (f j) _ _ H) as [E2|(n' & Ln & Hn)].
        + left. rewrite state_S, E2. exact E.
        + right. exists (S j), n'. rewrite state_S. split; [lia|auto].
    Qed.

    Lemma fair_ends : forall n i, measS (state i) n -> exists k, exists o, state k = Over o.
    Proof.
      induction n as [n IH] using lt_wf_ind. intros i H.
      destruct (state i) as [p|o] eqn:Es; [|exists i, o; exact Es].
      assert (Next : forall d, (exists j, (i <= j)%nat /\ f j = d) ->
        (exists n', (n' < n)%nat /\ measS (step d (Alive p)) n') -> exists k o, state k = Over o).
      { intros d (j & L & Ej) (n' & Ln & Hn). rewrite <- Es in H.
        destruct (state_between i j n L H) as [E|(j' & n2 & _ & L2 & H2)]; [|exact (IH n2 L2 j' H2)].
        apply (IH n' Ln (S j)). rewrite state_S, Ej, E, Es. exact Hn. }
      destruct (enabled p n H) as [Hm|(k & Lk & Hk)].
      - destruct (proj1 F i) as (j & b & L & Ej). exact (Next (MainTurn b) (ex_intro _ j (conj L Ej)) (Hm b)).
      - apply (Next (TaskTurn k)); [|exact Hk]. apply (proj2 F).
        pose proof (state_inv i) as I. rewrite Es in I. cbn [invS] in I. pose proof (inv_es _ _ I) as E. apply (f_equal (@List.length _)) in E.
        rewrite app_length, map_length in E. lia.
    Qed.
  End Fair.
End Process.
