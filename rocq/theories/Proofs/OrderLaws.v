(** What the comparisons of the machine mean: an interpretation of the float numbers (all
    floats but NaN) as real numbers that respects the order.  Both machines have one. *)
From Coq Require Import Reals ZArith Bool List Lia Lra.
From Flocq Require Import Core BinarySingleNaN.
From Verif.Model Require Import Outcome Machine MachineR MachineIEEE.
From Verif.Proofs Require Import FloatLemmas.
Local Open Scope R_scope.

Record real_order (M : machine) : Type := RealOrder {
  num : @flt M -> bool;
  val : @flt M -> R;
  val_ltb : forall x y, num x = true -> num y = true -> fltb x y = Rlt_bool (val x) (val y);
  val_leb : forall x y, num x = true -> num y = true -> fleb x y = Rle_bool (val x) (val y);
  ltb_num : forall x y, fltb x y = true -> num x = true /\ num y = true;
  leb_num : forall x y, fleb x y = true -> num x = true /\ num y = true;
  val_0 : num (fofZ 0) = true /\ val (fofZ 0) = 0;
  val_opp : forall x, num x = true -> num (fopp x) = true /\ val (fopp x) = - val x;
  opp_opp : forall x, fopp (fopp x) = x;
  add_nonneg : forall x y, num x = true -> num y = true -> 0 <= val x -> 0 <= val y ->
                           num (fadd x y) = true /\ 0 <= val (fadd x y);
  add_nan : forall x y, num x = false \/ num y = false -> num (fadd x y) = false
}.
Arguments num {M}. Arguments val {M}.

Definition exact_order (sh : R -> String.string) (as_ : bool) : real_order (exact sh as_).
Proof.
  refine (@RealOrder (exact sh as_) (fun _ => true) (fun x => x) _ _ _ _ _ _ _ _ _); cbn; auto.
  - intros. apply Ropp_involutive.
  - intros. split; auto. lra.
  - intros ? ? [H|H]; discriminate.
Defined.

Lemma ext_zero : ext (f32_of_Z 0) = 0.
Proof. reflexivity. Qed.

Lemma ieee_add_nonneg (x y : f32) : fnum x = true -> fnum y = true -> 0 <= ext x -> 0 <= ext y ->
  fnum (Bplus mode_NE x y) = true /\ 0 <= ext (Bplus mode_NE x y).
Proof.
  intros Hx Hy Px Py. pose proof big_pos.
  destruct (finite_cases x Hx) as [Fx|[->| ->]]; [|cbn in Px; lra|].
  2:{ destruct (finite_cases y Hy) as [Fy|[->| ->]]; [|cbn in Py; lra|].
      - destruct y; try discriminate; cbn; split; auto; lra.
      - cbn; split; auto; lra. }
  destruct (finite_cases y Hy) as [Fy|[->| ->]]; [|cbn in Py; lra|].
  2:{ destruct x; try discriminate; cbn; split; auto; lra. }
  rewrite (ext_finite x Fx) in Px. rewrite (ext_finite y Fy) in Py.
  pose proof (Bplus_correct 24 128 _ _ mode_NE x y Fx Fy) as H1.
  destruct (Rlt_bool_spec (Rabs (round radix2 fexp32 (round_mode mode_NE) (B2R x + B2R y))) (bpow radix2 128)) as [Hlt|Hge].
  - destruct H1 as (HR & HF & _). split; [apply finite_num; exact HF|].
    rewrite (ext_finite _ HF), HR. apply rnd_nonneg. lra.
  - destruct H1 as (HB & HS). cbn in HB.
    destruct (Bsign x) eqn:Sx.
    + exfalso. assert (X0 : B2R x <= 0).
      { destruct x as [s|s| |s m e He]; try discriminate; cbn; try lra. cbn in Sx. subst s.
        apply F2R_le_0. cbn. lia. }
      assert (Y0 : B2R y <= 0).
      { symmetry in HS. destruct y as [s|s| |s m e He]; try discriminate; cbn; try lra. cbn in HS. subst s.
        apply F2R_le_0. cbn. lia. }
      replace (B2R x + B2R y) with 0 in Hge by lra. rewrite round_0 in Hge by exact _.
      rewrite Rabs_R0 in Hge. unfold big in *. lra.
    + destruct (Bplus mode_NE x y) as [s|s| |s m e He]; cbn in HB; try discriminate.
      injection HB as ->. cbn. split; auto. lra.
Qed.

Definition ieee_order (lm : libm) (as_ : bool) : real_order (ieee lm as_).
Proof.
  refine (@RealOrder (ieee lm as_) fnum ext _ _ _ _ _ _ _ _ _); cbn.
  - apply Bltb_ext.
  - apply Bleb_ext.
  - apply Bltb_num.
  - apply Bleb_num.
  - split; reflexivity.
  - intros [s|s| |s m e He] Hx; try discriminate; cbn; split; auto.
    + lra.
    + destruct s; cbn; lra.
    + rewrite <- F2R_Zopp. destruct s; reflexivity.
  - apply Bopp_involutive.
  - apply ieee_add_nonneg.
  - intros x y [H|H]; [destruct x; try discriminate; destruct y; reflexivity|].
    destruct y; try discriminate. destruct x; reflexivity.
Defined.

Section Order.
  Context {M : machine} (O : real_order M).
  Notation num := (num O). Notation val := (val O).

  Lemma ltb_spec x y : num x = true -> num y = true -> fltb x y = true <-> val x < val y.
  Proof. intros Hx Hy. rewrite (val_ltb M O) by auto. split; [|apply Rlt_bool_true].
    destruct (Rlt_bool_spec (val x) (val y)); auto; discriminate. Qed.

  Lemma leb_spec x y : num x = true -> num y = true -> fleb x y = true <-> val x <= val y.
  Proof. intros Hx Hy. rewrite (val_leb M O) by auto. split; [|apply Rle_bool_true].
    destruct (Rle_bool_spec (val x) (val y)); auto; discriminate. Qed.

  Lemma fmax_spec x y : num x = true -> num y = true ->
    num (fmax x y) = true /\ val (fmax x y) = Rmax (val x) (val y) /\ (fmax x y = x \/ fmax x y = y).
  Proof.
    intros Hx Hy. unfold fmax. rewrite (val_ltb M O) by auto.
    destruct (Rlt_bool_spec (val x) (val y)).
    - rewrite Rmax_right by lra. auto.
    - rewrite Rmax_left by lra. auto.
  Qed.

  Lemma fmin_spec x y : num x = true -> num y = true ->
    num (fmin x y) = true /\ val (fmin x y) = Rmin (val x) (val y) /\ (fmin x y = x \/ fmin x y = y).
  Proof.
    intros Hx Hy. unfold fmin. rewrite (val_ltb M O) by auto.
    destruct (Rlt_bool_spec (val y) (val x)).
    - rewrite Rmin_right by lra. auto.
    - rewrite Rmin_left by lra. auto.
  Qed.

  (** Folding max / min over a list: the result is a member and bounds all. *)
  Lemma fold_fmax l x : num x = true -> (forall y, List.In y l -> num y = true) ->
    let m := List.fold_left fmax l x in
    num m = true /\ List.In m (x :: l) /\ (forall y, List.In y (x :: l) -> val y <= val m).
  Proof.
    revert x. induction l as [|a l IH]; intros x Hx Hl; cbn [List.fold_left].
    - split; auto. split; [left; auto|]. intros y [<-|[]]. lra.
    - destruct (fmax_spec x a Hx (Hl a (or_introl eq_refl))) as (N & V & C).
      destruct (IH (fmax x a) N (fun y h => Hl y (or_intror h))) as (N' & I' & B').
      split; [exact N'|]. split.
      + destruct I' as [E|I']; [|right; right; exact I']. rewrite <- E.
        destruct C as [->| ->]; [left|right; left]; reflexivity.
      + assert (Hm := B' _ (or_introl eq_refl)). rewrite V in Hm.
        pose proof (Rmax_l (val x) (val a)). pose proof (Rmax_r (val x) (val a)).
        intros y [<-|[<-|Hy]]; [lra|lra|]. apply B'. right. exact Hy.
  Qed.

  Lemma fold_fmin l x : num x = true -> (forall y, List.In y l -> num y = true) ->
    let m := List.fold_left fmin l x in
    num m = true /\ List.In m (x :: l) /\ (forall y, List.In y (x :: l) -> val m <= val y).
  Proof.
    revert x. induction l as [|a l IH]; intros x Hx Hl; cbn [List.fold_left].
    - split; auto. split; [left; auto|]. intros y [<-|[]]. lra.
    - destruct (fmin_spec x a Hx (Hl a (or_introl eq_refl))) as (N & V & C).
      destruct (IH (fmin x a) N (fun y h => Hl y (or_intror h))) as (N' & I' & B').
      split; [exact N'|]. split.
      + destruct I' as [E|I']; [|right; right; exact I']. rewrite <- E.
        destruct C as [->| ->]; [left|right; left]; reflexivity.
      + assert (Hm := B' _ (or_introl eq_refl)). rewrite V in Hm.
        pose proof (Rmin_l (val x) (val a)). pose proof (Rmin_r (val x) (val a)).
        intros y [<-|[<-|Hy]]; [lra|lra|]. apply B'. right. exact Hy.
  Qed.

  (** Comparisons with NaN are false; max and min keep a NaN on the left and ignore one on
      the right. *)
  Lemma ltb_nan x y : num x = false \/ num y = false -> fltb x y = false.
  Proof.
    intros H. destruct (fltb x y) eqn:E; [|reflexivity]. apply (ltb_num M O) in E as [E1 E2].
    destruct H; congruence.
  Qed.
  Lemma leb_nan x y : num x = false \/ num y = false -> fleb x y = false.
  Proof.
    intros H. destruct (fleb x y) eqn:E; [|reflexivity]. apply (leb_num M O) in E as [E1 E2].
    destruct H; congruence.
  Qed.

  Lemma fold_fmax_nan l x : num x = false -> List.fold_left fmax l x = x.
  Proof. intros H. induction l as [|a l IH]; [reflexivity|]. cbn [List.fold_left].
    unfold fmax at 2. rewrite ltb_nan by auto. exact IH. Qed.
  Lemma fold_fmin_nan l x : num x = false -> List.fold_left fmin l x = x.
  Proof. intros H. induction l as [|a l IH]; [reflexivity|]. cbn [List.fold_left].
    unfold fmin at 2. rewrite ltb_nan by auto. exact IH. Qed.

  Lemma fold_fmax_skip l x : num x = true ->
    List.fold_left fmax l x = List.fold_left fmax (List.filter num l) x.
  Proof.
    revert x. induction l as [|a l IH]; intros x Hx; [reflexivity|]. cbn [List.fold_left List.filter].
    destruct (num a) eqn:Ea.
    - cbn [List.fold_left]. apply IH. apply (fmax_spec x a Hx Ea).
    - unfold fmax at 2. rewrite ltb_nan by auto. apply IH. exact Hx.
  Qed.
  Lemma fold_fmin_skip l x : num x = true ->
    List.fold_left fmin l x = List.fold_left fmin (List.filter num l) x.
  Proof.
    revert x. induction l as [|a l IH]; intros x Hx; [reflexivity|]. cbn [List.fold_left List.filter].
    destruct (num a) eqn:Ea.
    - cbn [List.fold_left]. apply IH. apply (fmin_spec x a Hx Ea).
    - unfold fmin at 2. rewrite ltb_nan by auto. apply IH. exact Hx.
  Qed.

  Lemma ltb_false x y : (num x = true -> num y = true -> val y <= val x) <-> fltb x y = false.
  Proof.
    split.
    - intros H. destruct (num x) eqn:Ex; [|apply ltb_nan; auto]. destruct (num y) eqn:Ey; [|apply ltb_nan; auto].
      rewrite (val_ltb M O) by auto. apply Rlt_bool_false. apply H; auto.
    - intros H Hx Hy. rewrite (val_ltb M O) in H by auto. destruct (Rlt_bool_spec (val x) (val y)); [discriminate|lra].
  Qed.
  Lemma leb_false x y : (num x = true -> num y = true -> val y < val x) <-> fleb x y = false.
  Proof.
    split.
    - intros H. destruct (num x) eqn:Ex; [|apply leb_nan; auto]. destruct (num y) eqn:Ey; [|apply leb_nan; auto].
      rewrite (val_leb M O) by auto. apply Rle_bool_false. apply H; auto.
    - intros H Hx Hy. rewrite (val_leb M O) in H by auto. destruct (Rle_bool_spec (val x) (val y)); [discriminate|lra].
  Qed.

  (** Sums of floats that are not negative (NaN included) are not negative. *)
  Lemma fold_fadd_notneg l x : fltb x (fofZ 0) = false ->
    (forall y, List.In y l -> fltb y (fofZ 0) = false) -> fltb (List.fold_left fadd l x) (fofZ 0) = false.
  Proof.
    destruct (val_0 M O) as [N0 V0].
    revert x. induction l as [|a l IH]; intros x Hx Hl; [exact Hx|]. cbn [List.fold_left]. apply IH.
    - assert (Ha := Hl a (or_introl eq_refl)). rewrite <- ltb_false in Hx, Ha |- *. intros Hn _. rewrite V0 in *.
      destruct (num x) eqn:Ex; [|rewrite (add_nan M O) in Hn by auto; discriminate].
      destruct (num a) eqn:Ea; [|rewrite (add_nan M O) in Hn by auto; discriminate].
      apply (add_nonneg M O); auto.
    - intros y Hy. apply Hl. right. exact Hy.
  Qed.

  Lemma fold_fadd_nonneg l x : num x = true -> 0 <= val x ->
    (forall y, List.In y l -> num y = true /\ 0 <= val y) ->
    num (List.fold_left fadd l x) = true /\ 0 <= val (List.fold_left fadd l x).
  Proof.
    revert x. induction l as [|a l IH]; intros x Hx Px Hl; cbn [List.fold_left]; [auto|].
    destruct (Hl a (or_introl eq_refl)) as [Na Pa].
    destruct (add_nonneg M O x a Hx Na Px Pa) as [N P]. apply IH; auto.
    intros y Hy. apply Hl. right. exact Hy.
  Qed.
End Order.
