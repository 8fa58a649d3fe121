(** Sliding mean and variance in exact arithmetic. *)
From Coq Require Import Reals ZArith Bool List Lia Lra.
From Flocq Require Import Core.
From Verif.Model Require Import Outcome Machine Types Indicators MachineR.
From Verif.Spec Require Import SeriesSpec IndicatorSpec.
From Verif.Proofs Require Import Base SeriesProofs LastNProofs HelperProofs.
Import ListNotations.
Local Open Scope R_scope.

Lemma Rsum_app a b : Rsum (a ++ b) = Rsum a + Rsum b.
Proof. unfold Rsum. induction a as [|x a IH]; cbn; [lra|]. rewrite IH. lra. Qed.

Lemma Rsum_snoc a x : Rsum (a ++ [x]) = Rsum a + x.
Proof. rewrite Rsum_app. cbn. lra. Qed.

Lemma mean_eq l : l <> [] -> mean l = Rsum l / INR (length l).
Proof. destruct l; [congruence|reflexivity]. Qed.

Lemma INR_length_pos {A} (l : list A) : l <> [] -> 0 < INR (length l).
Proof. destruct l; [congruence|]. intros _. apply lt_0_INR. cbn. lia. Qed.

(** The mean of the squares minus the square of the mean is the mean squared deviation. *)
Lemma Rsum_dev l m : Rsum (map (fun x => (x - m) ^ 2) l)
  = Rsum (map (fun x => x * x) l) - 2 * m * Rsum l + INR (length l) * (m * m).
Proof.
  induction l as [|x l IH]; [cbn; lra|]. cbn [map length]. rewrite S_INR. unfold Rsum in *. cbn [fold_right]. rewrite IH. lra.
Qed.

Lemma variance_eq l : l <> [] ->
  variance l = Rsum (map (fun x => x * x) l) / INR (length l) - mean l * mean l.
Proof.
  intros H. unfold variance. rewrite mean_eq by (destruct l; [congruence|discriminate]).
  rewrite map_length, Rsum_dev, (mean_eq l H). pose proof (INR_length_pos l H). field. lra.
Qed.

Lemma Rsum_nonneg l : (forall x, In x l -> 0 <= x) -> 0 <= Rsum l.
Proof.
  induction l as [|x l IH]; intros H; [cbn; lra|]. unfold Rsum in *. cbn [fold_right].
  pose proof (H x (or_introl eq_refl)). assert (0 <= fold_right Rplus 0 l) by (apply IH; intros; apply H; right; assumption). lra.
Qed.

Lemma variance_nonneg l : 0 <= variance l.
Proof.
  unfold variance. destruct l as [|x l]; [cbn; lra|].
  rewrite mean_eq by discriminate. apply Rle_mult_inv_pos; [|apply INR_length_pos; discriminate].
  apply Rsum_nonneg. intros y Hy. apply in_map_iff in Hy as (z & <- & _). apply pow2_ge_0.
Qed.

Section Mean.
  Context (sh : R -> String.string) (as_ : bool).
  Notation E := (exact sh as_).

  (** The values before the current one that count. *)
  Definition earlier (n : Z) (vs0 : list R) : list R :=
    if (n =? 0)%Z then vs0 else lastn (Z.to_nat (n - 1)) vs0.

  Lemma last_or_all_snoc n vs0 (c : R) : (0 <= n)%Z -> last_or_all n (vs0 ++ [c]) = earlier n vs0 ++ [c].
  Proof.
    intros Hn. unfold last_or_all, earlier. destruct (Z.eqb_spec n 0) as [->|H0]; [reflexivity|].
    unfold lastn. rewrite app_length. cbn [length].
    replace (length vs0 + 1 - Z.to_nat n)%nat with (length vs0 - Z.to_nat (n - 1))%nat by lia.
    apply skipn_snoc. lia.
  Qed.

  Definition mv_inv (n : Z) (s : @mean_var E) (vs : list R) : Prop :=
    @mv_window_size E s = n /\ @mv_num_values E s = Z.of_nat (length vs) /\
    match rev vs with
    | [] => @mv_current E s = 0 /\ @mv_window E s = [] /\ @mv_sum E s = 0 /\ @mv_sum2 E s = 0
    | c :: older =>
      @mv_current E s = c /\
      ((n <> 0)%Z -> @mv_window E s = earlier n (rev older)) /\
      @mv_sum E s = Rsum (earlier n (rev older)) /\
      @mv_sum2 E s = Rsum (map (fun x => x * x) (earlier n (rev older)))
    end.

  Lemma earlier_short n vs : (0 < n)%Z -> (length vs <= Z.to_nat (n - 1))%nat -> earlier n vs = vs.
  Proof. intros H H1. unfold earlier. rewrite (proj2 (Z.eqb_neq n 0)) by lia. apply lastn_short. exact H1. Qed.

  Lemma mv_inv_of n vs : (0 <= n)%Z -> mv_inv n (@mv_of E n vs) vs.
  Proof.
    intros Hn. induction vs as [|v vs IH] using rev_ind.
    - unfold mv_inv. cbn. repeat split.
    - change (@flt E) with R in *. rewrite (@mv_of_snoc E). set (s := @mv_of E n vs) in *. clearbody s. destruct IH as (I1 & I2 & I3).
      unfold mv_inv. rewrite (@mv_num E), I2, app_length, rev_app_distr. cbn [length rev app].
      rewrite rev_involutive. unfold mv_AddNewValue. change (@flt E) with R in *. rewrite I1, I2.
      destruct ((Z.of_nat (length vs) =? 0)%Z || (n <=? 1)%Z) eqn:C.
      + assert (Hcase : vs = [] \/ n = 0%Z \/ n = 1%Z).
        { apply orb_true_iff in C as [C|C]; [apply Z.eqb_eq in C; destruct vs; [auto|cbn in C; lia]|].
          apply Z.leb_le in C. lia. }
        destruct (Z.eqb_spec n 0) as [->|Hn0].
        * cbn [mv_window_size mv_current mv_window mv_sum mv_sum2]. split; [reflexivity|]. split; [lia|].
          split; [reflexivity|]. split; [lia|]. unfold earlier. cbn [Z.eqb].
          destruct (list_snoc vs) as [->|(vs0 & c & ->)].
          -- cbn in I3. destruct I3 as (J1 & _ & J3 & J4). rewrite J1, J3, J4. cbn. unfold add_square, dsquare. cbn. rewrite ?J1, ?J4. split; lra.
          -- rewrite rev_app_distr in I3. cbn [rev app] in I3. rewrite rev_involutive in I3.
             destruct I3 as (J1 & _ & J3 & J4). unfold earlier in J3, J4. cbn [Z.eqb] in J3, J4.
             unfold add_square, dsquare. cbn [fadd exact d2f dadd f2d dmul]. rewrite J1, J3, J4, map_app, !Rsum_app. cbn. split; lra.
        * cbn [mv_window_size mv_current mv_window mv_sum mv_sum2]. split; [reflexivity|]. split; [lia|].
          split; [reflexivity|].
          assert (He : earlier n vs = []).
          { destruct Hcase as [->|[H|H]]; [|lia|].
            - unfold earlier. destruct (n =? 0)%Z; reflexivity.
            - rewrite H. unfold earlier. cbn [Z.eqb]. unfold lastn. change (Z.to_nat (1 - 1)) with 0%nat.
              rewrite Nat.sub_0_r. apply skipn_all. }
          rewrite He. cbn [map Rsum fold_right].
          destruct (list_snoc vs) as [->|(vs0 & c & ->)].
          -- cbn in I3. destruct I3 as (J1 & J2 & J3 & J4). auto.
          -- rewrite rev_app_distr in I3. cbn [rev app] in I3. rewrite rev_involutive in I3.
             destruct I3 as (J1 & J2 & J3 & J4).
             assert (n = 1%Z) as E1 by (destruct Hcase as [H|[H|H]]; [destruct vs0; discriminate|lia|exact H]).
             assert (He0 : earlier n vs0 = []).
             { rewrite E1. unfold earlier. cbn [Z.eqb]. unfold lastn. change (Z.to_nat (1 - 1)) with 0%nat.
               rewrite Nat.sub_0_r. apply skipn_all. }
             rewrite He0 in *. rewrite J2, J3, J4 by lia. auto.
      + apply orb_false_iff in C as [C1 C2]. apply Z.eqb_neq in C1. apply Z.leb_gt in C2.
        destruct (list_snoc vs) as [->|(vs0 & c & Evs)]; [cbn in C1; lia|]. rewrite Evs in *.
        rewrite rev_app_distr in I3. cbn [rev app] in I3. rewrite rev_involutive in I3.
        destruct I3 as (J1 & J2 & J3 & J4). rewrite J2, J1 by lia.
        assert (EL : length (earlier n vs0 ++ [c]) = S (Nat.min (Z.to_nat (n - 1)) (length vs0))).
        { rewrite app_length. unfold earlier. rewrite (proj2 (Z.eqb_neq n 0)) by lia. rewrite lastn_length. cbn [length]. lia. }
        destruct (Z.leb_spec n (Z.of_nat (length (earlier n vs0 ++ [c])))) as [H|H].
        * rewrite EL in H. assert (Hl : (0 < Z.to_nat (n - 1) <= length vs0)%nat) by lia.
          assert (Hnew : earlier n (vs0 ++ [c]) = tl (earlier n vs0 ++ [c])).
          { unfold earlier. rewrite (proj2 (Z.eqb_neq n 0)) by lia. rewrite lastn_snoc_full by lia.
            destruct (lastn (Z.to_nat (n - 1)) vs0) eqn:Ee; [|reflexivity].
            apply (f_equal (@length _)) in Ee. rewrite lastn_length in Ee. cbn in Ee. lia. }
          rewrite Hnew. set (w := earlier n vs0 ++ [c]) in *.
          assert (S1 : Rsum w = @mv_sum E s + c) by (unfold w; rewrite Rsum_snoc, J3; reflexivity).
          assert (S2 : Rsum (map (fun x => x * x) w) = @mv_sum2 E s + c * c) by (unfold w; rewrite map_app, Rsum_app, J4; cbn; lra).
          destruct w as [|x w]; [cbn in EL; lia|]. cbn [tl].
          cbn [mv_window_size mv_current mv_window mv_sum mv_sum2].
          split; [reflexivity|]. split; [lia|]. split; [reflexivity|]. split; [reflexivity|].
          unfold sub_square, add_square, dsquare. cbn [fadd fsub exact d2f dadd dsub f2d dmul]. cbn [map] in S2. unfold Rsum in *.
          cbn [fold_right] in S1, S2. split; lra.
        * assert (Hl : (length vs0 < Z.to_nat (n - 1))%nat) by lia.
          cbn [mv_window_size mv_current mv_window mv_sum mv_sum2].
          split; [reflexivity|]. split; [lia|]. split; [reflexivity|].
          rewrite !earlier_short in * by (rewrite ?app_length; cbn [length]; lia).
          split; [reflexivity|]. unfold add_square, dsquare. cbn [fadd exact d2f dadd f2d dmul].
          rewrite J3, J4, map_app, !Rsum_app. cbn. split; f_equal; symmetry; apply Rplus_0_r.
  Qed.

  Lemma window_size_eq n (vs : list R) : (0 <= n)%Z -> vs <> [] ->
    @mv_GetWindowSize E (@mv_of E n vs) = Z.of_nat (length (last_or_all n vs)) /\ last_or_all n vs <> [].
  Proof.
    intros Hn Hv. destruct (mv_inv_of n vs Hn) as (I1 & I2 & _).
    unfold mv_GetWindowSize. rewrite I1, I2. unfold last_or_all. change (@flt E) with R in *.
    destruct (Z.eqb_spec n 0) as [->|H0]; [auto|]. rewrite lastn_length. split; [lia|].
    intros H. apply (f_equal (@length _)) in H. rewrite lastn_length in H. destruct vs; [congruence|]. cbn [length] in H. lia.
  Qed.

  Theorem mean_of n (vs : list R) : (0 <= n)%Z -> @mv_GetMean E (@mv_of E n vs) = mean (last_or_all n vs).
  Proof.
    intros Hn. destruct (list_snoc vs) as [->|(vs0 & c & ->)].
    - unfold last_or_all. destruct (n =? 0)%Z; reflexivity.
    - destruct (window_size_eq n (vs0 ++ [c]) Hn) as [W1 W2]; [destruct vs0; discriminate|].
      destruct (mv_inv_of n (vs0 ++ [c]) Hn) as (I1 & I2 & I3).
      unfold mv_GetMean. rewrite W1, I2. rewrite (proj2 (Z.eqb_neq _ 0)) by (rewrite app_length; cbn; lia).
      rewrite rev_app_distr in I3. cbn [rev app] in I3. rewrite rev_involutive in I3. destruct I3 as (J1 & _ & J3 & _).
      rewrite mean_eq by exact W2. cbn [fdiv fadd fofZ exact]. rewrite <- INR_IZR_INZ. f_equal.
      rewrite (last_or_all_snoc n vs0 c Hn), Rsum_snoc, J1, J3. lra.
  Qed.

  Theorem variance_of n (vs : list R) : (0 <= n)%Z -> @mv_GetVariance E (@mv_of E n vs) = variance (last_or_all n vs).
  Proof.
    intros Hn. destruct (list_snoc vs) as [->|(vs0 & c & ->)].
    - unfold last_or_all. destruct (n =? 0)%Z; reflexivity.
    - destruct (window_size_eq n (vs0 ++ [c]) Hn) as [W1 W2]; [destruct vs0; discriminate|].
      destruct (mv_inv_of n (vs0 ++ [c]) Hn) as (I1 & I2 & I3).
      unfold mv_GetVariance. rewrite W1, I2. rewrite (proj2 (Z.eqb_neq _ 0)) by (rewrite app_length; cbn; lia).
      rewrite rev_app_distr in I3. cbn [rev app] in I3. rewrite rev_involutive in I3. destruct I3 as (J1 & _ & J3 & J4).
      rewrite variance_eq by exact W2. rewrite mean_eq by exact W2.
      unfold dsquare. cbn [fdiv fadd fofZ d2f f2d dsub ddiv dadd dmul dofZ exact]. rewrite <- INR_IZR_INZ.
      rewrite (last_or_all_snoc n vs0 c Hn), map_app, Rsum_snoc, Rsum_app, J1, J3, J4. cbn [map Rsum fold_right].
      replace (Rsum (earlier n vs0) + c) with (c + Rsum (earlier n vs0)) by lra. f_equal. f_equal. lra.
  Qed.
End Mean.
