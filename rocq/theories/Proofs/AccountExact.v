(** The account in exact arithmetic. *)
From Coq Require Import Reals ZArith Bool List Lra Lia.
From Flocq Require Import Core.
From Verif.Model Require Import Outcome Machine Types Account MachineR.
From Verif.Spec Require Import AccountSpec.
From Verif.Proofs Require Import Base.
Import ListNotations.
Local Open Scope R_scope.

Lemma whole_units_IZR u k : whole_units u (IZR k * u).
Proof. right; eauto. Qed.

Lemma whole_units_0 u : whole_units u 0.
Proof. right; exists 0%Z; lra. Qed.

Lemma whole_units_plus u x y : whole_units u x -> whole_units u y -> whole_units u (x + y).
Proof.
  intros [H|[k ->]] [H'|[k' ->]]; try (left; assumption).
  right; exists (k + k')%Z. rewrite plus_IZR; lra.
Qed.

Lemma whole_units_minus u x y : whole_units u x -> whole_units u y -> whole_units u (x - y).
Proof.
  intros [H|[k ->]] [H'|[k' ->]]; try (left; assumption).
  right; exists (k - k')%Z. rewrite minus_IZR; lra.
Qed.

(** Between two whole numbers of units less than one unit apart there is nothing. *)
Lemma whole_units_lt u x y : 0 < u -> whole_units u x -> whole_units u y -> x < y -> x + u <= y.
Proof.
  intros Hu [H|[k ->]] [H'|[k' ->]] Hlt; try lra.
  assert (Hk : (k < k')%Z).
  { apply lt_IZR. apply Rmult_lt_reg_r with u; assumption. }
  assert (IZR k + 1 <= IZR k').
  { rewrite <- plus_IZR. apply IZR_le; lia. }
  replace (IZR k * u + u) with ((IZR k + 1) * u) by ring.
  apply Rmult_le_compat_r; lra.
Qed.

Ltac ring_R := match goal with |- @eq _ ?x ?y => change (@eq R x y) end; lra.
Ltac unfold_rounded := unfold rounded_up, rounded_down, rounded_near in *.
Ltac case_unit u := destruct (Req_EM_T u 0) as [?Hu0|?Hu0].

Lemma rounded_up_unique u x y y' : 0 <= u -> rounded_up u x y -> rounded_up u x y' -> y = y'.
Proof.
  unfold_rounded. intros Hu [W H] [W' H']. case_unit u; [congruence|].
  destruct (Rtotal_order y y') as [L|[L|L]]; auto; exfalso.
  - pose proof (@whole_units_lt u y y' ltac:(lra) W W' L). lra.
  - pose proof (@whole_units_lt u y' y ltac:(lra) W' W L). lra.
Qed.

Lemma rounded_down_unique u x y y' : 0 <= u -> rounded_down u x y -> rounded_down u x y' -> y = y'.
Proof.
  unfold_rounded. intros Hu [W H] [W' H']. case_unit u; [congruence|].
  destruct (Rtotal_order y y') as [L|[L|L]]; auto; exfalso.
  - pose proof (@whole_units_lt u y y' ltac:(lra) W W' L). lra.
  - pose proof (@whole_units_lt u y' y ltac:(lra) W' W L). lra.
Qed.

Lemma rounded_near_unique u x y y' : 0 <= u -> rounded_near u x y -> rounded_near u x y' -> y = y'.
Proof.
  unfold_rounded. intros Hu [W H] [W' H']. case_unit u; [congruence|].
  destruct (Rtotal_order y y') as [L|[L|L]]; auto; exfalso.
  - pose proof (@whole_units_lt u y y' ltac:(lra) W W' L). lra.
  - pose proof (@whole_units_lt u y' y ltac:(lra) W' W L). lra.
Qed.

Lemma rounded_up_mono u x y x' y' :
  0 <= u -> rounded_up u x y -> rounded_up u x' y' -> x <= x' -> y <= y'.
Proof.
  unfold_rounded. intros Hu [W H] [W' H'] Hx. case_unit u; [lra|].
  destruct (Rle_or_lt y y') as [L|L]; auto.
  pose proof (@whole_units_lt u y' y ltac:(lra) W' W L). lra.
Qed.

Lemma rounded_down_mono u x y x' y' :
  0 <= u -> rounded_down u x y -> rounded_down u x' y' -> x <= x' -> y <= y'.
Proof.
  unfold_rounded. intros Hu [W H] [W' H'] Hx. case_unit u; [lra|].
  destruct (Rle_or_lt y y') as [L|L]; auto.
  pose proof (@whole_units_lt u y' y ltac:(lra) W' W L). lra.
Qed.

Lemma rounded_up_whole u x : whole_units u x -> 0 <= u -> rounded_up u x x.
Proof. intros W Hu. split; auto. case_unit u; auto; lra. Qed.
Lemma rounded_down_whole u x : whole_units u x -> 0 <= u -> rounded_down u x x.
Proof. intros W Hu. split; auto. case_unit u; auto; lra. Qed.
Lemma rounded_near_whole u x : whole_units u x -> 0 <= u -> rounded_near u x x.
Proof. intros W Hu. split; auto. case_unit u; auto; lra. Qed.

Lemma rounded_down_le u x y : rounded_down u x y -> y <= x.
Proof. unfold_rounded. intros [_ H]. case_unit u; lra. Qed.
Lemma rounded_up_ge u x y : rounded_up u x y -> x <= y.
Proof. unfold_rounded. intros [_ H]. case_unit u; lra. Qed.

(** Rounding a non-negative number gives a non-negative number. *)
Lemma rounded_down_nonneg u x y : 0 <= u -> rounded_down u x y -> 0 <= x -> 0 <= y.
Proof.
  intros Hu H Hx. eapply rounded_down_mono; [exact Hu| |exact H|exact Hx].
  apply rounded_down_whole; auto using whole_units_0.
Qed.
Lemma rounded_near_nonneg u x y : 0 <= u -> rounded_near u x y -> 0 <= x -> 0 <= y.
Proof.
  unfold_rounded. intros Hu [W H] Hx. case_unit u; [lra|].
  destruct (Rle_or_lt 0 y) as [L|L]; auto.
  pose proof (@whole_units_lt u y 0 ltac:(lra) W (whole_units_0 u) L). lra.
Qed.

Section Exact.
  Context {sh : R -> String.string} {as_ : bool}.
  Local Notation E := (exact sh as_).

  Lemma Ceil_rounded x u : 0 <= u -> rounded_up u x (@Ceil E x u).
  Proof.
    intros Hu. unfold Ceil, rounded_up. cbn.
    destruct (Rlt_bool_spec 0 u) as [H|H].
    - split; [right; exists (Zceil (x / u)); ring|].
      case_unit u; [lra|].
      pose proof (Zceil_ub (x / u)) as H1. pose proof (Zceil_lb (x / u)) as H2.
      assert (Hx : x = u * (x / u)) by (field; lra).
      set (z := x / u) in *. rewrite Hx.
      split; [apply Rmult_le_compat_l; lra|].
      replace (u * z + u) with (u * (z + 1)) by ring.
      apply Rmult_lt_compat_l; lra.
    - assert (u = 0) by lra. subst. split; [left; auto|]. case_unit 0; auto; lra.
  Qed.

  Lemma Floor_rounded x u : 0 <= u -> rounded_down u x (@Floor E x u).
  Proof.
    intros Hu. unfold Floor, rounded_down. cbn.
    destruct (Rlt_bool_spec 0 u) as [H|H].
    - split; [right; exists (Zfloor (x / u)); ring|].
      case_unit u; [lra|].
      pose proof (Zfloor_ub (x / u)) as H1. pose proof (Zfloor_lb (x / u)) as H2.
      assert (Hx : x = u * (x / u)) by (field; lra).
      set (z := x / u) in *. rewrite Hx.
      split; [apply Rmult_le_compat_l; lra|].
      replace (u * IZR (Zfloor z) + u) with (u * (IZR (Zfloor z) + 1)) by ring.
      apply Rmult_lt_compat_l; lra.
    - assert (u = 0) by lra. subst. split; [left; auto|]. case_unit 0; auto; lra.
  Qed.

  Lemma ZnearestA_bounds x : 0 <= x -> IZR (ZnearestA x) - 1 / 2 <= x < IZR (ZnearestA x) + 1 / 2.
  Proof.
    intros Hx. unfold ZnearestA, Znearest.
    pose proof (Zfloor_lb x) as H1. pose proof (Zfloor_ub x) as H2.
    assert (Hf : (0 <= Zfloor x)%Z) by (apply Zfloor_lub; exact Hx).
    destruct (Rcompare_spec (x - IZR (Zfloor x)) (/ 2)) as [H|H|H].
    - lra.
    - apply Zle_bool_imp_le in Hf || idtac.
      replace (0 <=? Zfloor x)%Z with true by (symmetry; apply Z.leb_le; lia).
      rewrite (Zceil_floor_neq x) by lra. rewrite plus_IZR. lra.
    - rewrite (Zceil_floor_neq x) by lra. rewrite plus_IZR. lra.
  Qed.

  Lemma Round_rounded x u : 0 <= u -> 0 <= x -> rounded_near u x (@Round E x u).
  Proof.
    intros Hu Hx0. unfold Round, rounded_near. cbn.
    destruct (Rlt_bool_spec 0 u) as [H|H].
    - split; [right; exists (ZnearestA (x / u)); ring|].
      case_unit u; [lra|].
      assert (Hz : 0 <= x / u) by (apply Rmult_le_pos; [lra | left; apply Rinv_0_lt_compat; lra]).
      pose proof (ZnearestA_bounds (x / u) Hz) as [H1 H2].
      assert (Hx : x = u * (x / u)) by (field; lra).
      set (z := x / u) in *. rewrite Hx.
      split.
      + replace (u * IZR (ZnearestA z) - u / 2) with (u * (IZR (ZnearestA z) - 1 / 2)) by field.
        apply Rmult_le_compat_l; lra.
      + replace (u * IZR (ZnearestA z) + u / 2) with (u * (IZR (ZnearestA z) + 1 / 2)) by field.
        apply Rmult_lt_compat_l; lra.
    - assert (u = 0) by lra. subst. split; [left; auto|]. case_unit 0; auto; lra.
  Qed.

  Lemma Round_whole x u : 0 <= u -> whole_units u x -> @Round E x u = x.
  Proof.
    intros Hu Hw. unfold Round. cbn. destruct (Rlt_bool_spec 0 u) as [H|H]; [|reflexivity].
    destruct Hw as [Hw|[k ->]]; [lra|].
    replace (IZR k * u / u) with (IZR k) by (field; lra).
    rewrite Znearest_imp with (n := k).
    2: { replace (IZR k - IZR k) with 0 by ring. rewrite Rabs_R0. lra. }
    ring.
  Qed.

  Lemma fmax_Rmax (x y : R) : @fmax E x y = Rmax x y.
  Proof.
    unfold fmax; cbn. destruct (Rlt_bool_spec x y).
    - rewrite Rmax_right; lra.
    - rewrite Rmax_left; lra.
  Qed.
  Lemma fmin_Rmin (x y : R) : @fmin E x y = Rmin x y.
  Proof.
    unfold fmin; cbn. destruct (Rlt_bool_spec y x).
    - rewrite Rmin_right; lra.
    - rewrite Rmin_left; lra.
  Qed.

  Lemma GetFee_due (a : @account E) fc x :
    0 <= (quote_unit a : R) -> fee_due fc (quote_unit a) x (@GetFee E a fc x).
  Proof.
    intros Hu. unfold GetFee, fee_due. rewrite fmax_Rmax.
    replace (relative_fee fc * x) with (x * relative_fee fc) by apply Rmult_comm.
    apply Ceil_rounded. exact Hu.
  Qed.

  Lemma fee_due_unique (fc : @fee_config E) u x f f' :
    0 <= u -> fee_due fc u x f -> fee_due fc u x f' -> f = f'.
  Proof. unfold fee_due; apply rounded_up_unique. Qed.

  Lemma fee_due_nonneg (fc : @fee_config E) u x f : sane_fees fc -> fee_due fc u x f -> 0 <= f.
  Proof.
    intros [] H. apply rounded_up_ge in H.
    eapply Rle_trans; [|exact H]. eapply Rle_trans; [|apply Rmax_l]. assumption.
  Qed.

  Lemma fee_due_mono (fc : @fee_config E) u x y f g :
    0 <= u -> sane_fees fc -> x <= y -> fee_due fc u x f -> fee_due fc u y g -> f <= g.
  Proof.
    intros Hu [] Hxy. unfold fee_due. intros H1 H2.
    eapply rounded_up_mono; [exact Hu | exact H1 | exact H2 |].
    apply Rle_max_compat_l. apply Rplus_le_compat_l. apply Rmult_le_compat_l; assumption.
  Qed.

  (** BuyBase as a decision procedure for the specification. *)
  Lemma BuyBase_exact (fc : @fee_config E) (x p : R) (a : @account E) b c f :
    sane_account a -> sane_fees fc -> 0 < p -> 0 <= x ->
    rounded_near (base_unit a) x b ->
    rounded_up (quote_unit a) (b * p) c ->
    fee_due fc (quote_unit a) c f ->
    @BuyBase E fc x p a =
    Done (if Rle_dec (base_unit a) b then
            if Rle_dec (c + f) (quote_balance a) then
              (true, @set_balances E a (base_balance a + b) (quote_balance a - (c + f)) (total_fee a + f))
            else (false, a)
          else (false, a)).
  Proof.
    intros [] Hfc Hp Hx Hb Hc Hf. unfold BuyBase. cbn [fltb fleb fofZ exact].
    rewrite Rlt_bool_true by exact Hp. rewrite assert_true. cbn [bind].
    rewrite Rle_bool_true by exact Hx. rewrite assert_true. cbn [bind].
    assert (Eb : @Round E x (base_unit a) = b).
    { apply (rounded_near_unique (base_unit a) x); auto; apply Round_rounded; auto. }
    rewrite Eb. assert (Hb0 : 0 <= b) by (apply (rounded_near_nonneg (base_unit a) x b); auto).
    assert (Ec : @Ceil E (b * p) (quote_unit a) = c).
    { apply (rounded_up_unique (quote_unit a) (b * p)); auto; apply Ceil_rounded; auto. }
    cbn [fmul exact]. rewrite Ec.
    assert (Ef : @GetFee E a fc c = f).
    { apply (fee_due_unique fc (quote_unit a) c); auto; apply GetFee_due; auto. }
    rewrite Ef. cbn [fadd fsub exact].
    destruct (Rle_dec (base_unit a) b) as [H1|H1].
    2: { rewrite Rlt_bool_true by (apply Rnot_le_lt; exact H1). reflexivity. }
    rewrite Rlt_bool_false by exact H1.
    destruct (Rle_dec (c + f) (quote_balance a)) as [H2|H2].
    2: { rewrite Rlt_bool_true by (apply Rnot_le_lt; exact H2). reflexivity. }
    rewrite Rlt_bool_false by exact H2.
    pose proof (fee_due_nonneg _ _ _ _ Hfc Hf) as Hf0.
    assert (Hfw : whole_units (quote_unit a) f) by apply Hf.
    assert (Hcw : whole_units (quote_unit a) c) by apply Hc.
    assert (Hbw : whole_units (base_unit a) b) by apply Hb.
    do 2 f_equal. f_equal.
    - apply Round_whole; auto. apply whole_units_plus; auto.
    - apply Round_whole; auto. apply whole_units_minus, whole_units_plus; auto.
    - apply Round_whole; auto. apply whole_units_plus; auto.
  Qed.

  Lemma SellBase_exact (fc : @fee_config E) (x p : R) (a : @account E) b c f :
    sane_account a -> sane_fees fc -> 0 < p -> 0 <= x ->
    rounded_near (base_unit a) x b ->
    rounded_down (quote_unit a) (b * p) c ->
    fee_due fc (quote_unit a) c f ->
    @SellBase E fc x p a =
    Done (if Rle_dec (base_unit a) b then
            if Rle_dec b (base_balance a) then
              if Rle_dec (quote_unit a) (c - f) then
                (true, @set_balances E a (base_balance a - b) (quote_balance a + (c - f)) (total_fee a + f))
              else (false, a)
            else (false, a)
          else (false, a)).
  Proof.
    intros [] Hfc Hp Hx Hb Hc Hf. unfold SellBase. cbn [fltb fleb fofZ exact].
    rewrite Rlt_bool_true by exact Hp. rewrite assert_true. cbn [bind].
    rewrite Rle_bool_true by exact Hx. rewrite assert_true. cbn [bind].
    assert (Eb : @Round E x (base_unit a) = b).
    { apply (rounded_near_unique (base_unit a) x); auto; apply Round_rounded; auto. }
    rewrite Eb. assert (Hb0 : 0 <= b) by (apply (rounded_near_nonneg (base_unit a) x b); auto).
    assert (Ec : @Floor E (b * p) (quote_unit a) = c).
    { apply (rounded_down_unique (quote_unit a) (b * p)); auto; apply Floor_rounded; auto. }
    cbn [fmul exact]. rewrite Ec.
    assert (Ef : @GetFee E a fc c = f).
    { apply (fee_due_unique fc (quote_unit a) c); auto; apply GetFee_due; auto. }
    rewrite Ef. cbn [fadd fsub exact].
    destruct (Rle_dec (base_unit a) b) as [H1|H1].
    2: { rewrite Rlt_bool_true by (apply Rnot_le_lt; exact H1). reflexivity. }
    rewrite Rlt_bool_false by exact H1. cbn [orb].
    destruct (Rle_dec b (base_balance a)) as [H3|H3].
    2: { rewrite Rlt_bool_true by (apply Rnot_le_lt; exact H3). reflexivity. }
    rewrite Rlt_bool_false by exact H3.
    destruct (Rle_dec (quote_unit a) (c - f)) as [H2|H2].
    2: { rewrite Rlt_bool_true by (apply Rnot_le_lt; exact H2). reflexivity. }
    rewrite Rlt_bool_false by exact H2.
    pose proof (fee_due_nonneg _ _ _ _ Hfc Hf) as Hf0.
    assert (Hfw : whole_units (quote_unit a) f) by apply Hf.
    assert (Hcw : whole_units (quote_unit a) c) by apply Hc.
    assert (Hbw : whole_units (base_unit a) b) by apply Hb.
    do 2 f_equal. f_equal.
    - apply Round_whole; auto. apply whole_units_minus; auto.
    - apply Round_whole; auto. apply whole_units_plus, whole_units_minus; auto.
    - apply Round_whole; auto. apply whole_units_plus; auto.
  Qed.

  (** Any amount has its rounded versions. *)
  Lemma rounded_near_exists u x : 0 <= u -> 0 <= x -> exists y, rounded_near u x y.
  Proof. intros Hu Hx. exists (@Round E x u). apply Round_rounded; auto. Qed.
  Lemma rounded_up_exists u x : 0 <= u -> exists y, rounded_up u x y.
  Proof. intros Hu. exists (@Ceil E x u). apply Ceil_rounded; auto. Qed.
  Lemma rounded_down_exists u x : 0 <= u -> exists y, rounded_down u x y.
  Proof. intros Hu. exists (@Floor E x u). apply Floor_rounded; auto. Qed.

  Lemma rounded_near_le u x y : 0 <= u -> rounded_near u x y -> y <= x + u / 2.
  Proof. unfold_rounded. intros Hu [_ H]. case_unit u; lra. Qed.

  (** Rounding up a number below a whole number of units does not pass it. *)
  Lemma rounded_up_le_whole u x y z :
    0 <= u -> rounded_up u x y -> whole_units u z -> x <= z -> y <= z.
  Proof.
    intros Hu H W Hx. apply (rounded_up_mono u x y z z); auto. apply rounded_up_whole; auto.
  Qed.

  Definition buy_trade (p b c f : R) : trade := Trade BUY p b c f.
  Definition sell_trade (p b c f : R) : trade := Trade SELL p b c f.

  Lemma BuyBase_trade (fc : @fee_config E) (x p : R) (a : @account E) :
    sane_account a -> sane_fees fc -> 0 < p -> 0 <= x ->
    exists ok a', @BuyBase E fc x p a = Done (ok, a') /\
      (ok = false -> a' = a) /\
      (ok = true -> exists tr, tr_side tr = BUY /\ tr_price tr = p /\ fair_trade fc a tr /\ booked a tr a'
                               /\ rounded_near (base_unit a) x (tr_base tr)).
  Proof.
    intros Ha Hfc Hp Hx. pose proof Ha as [].
    destruct (rounded_near_exists (base_unit a) x) as [b Hb]; auto.
    destruct (rounded_up_exists (quote_unit a) (b * p)) as [c Hc]; auto.
    destruct (rounded_up_exists (quote_unit a)
      (Rmax (minimum_fee fc) (fixed_fee fc + relative_fee fc * c))) as [f Hf]; auto.
    pose proof (BuyBase_exact fc x p a b c f Ha Hfc Hp Hx Hb Hc Hf) as HB.
    rewrite HB. clear HB.
    destruct (Rle_dec (base_unit a) b) as [H1|H1]; [|do 2 eexists; split; [reflexivity|]; split; congruence].
    destruct (Rle_dec (c + f) (quote_balance a)) as [H2|H2];
      [|do 2 eexists; split; [reflexivity|]; split; congruence].
    do 2 eexists; split; [reflexivity|]; split; [congruence|]. intros _.
    exists (Trade BUY p b c f).
    repeat match goal with |- _ /\ _ => split end; auto.
    - constructor; cbn; auto.
      + apply Hb.
      + apply (rounded_near_nonneg (base_unit a) x b); auto.
    - unfold booked; cbn. repeat split; try reflexivity. ring.
  Qed.

  Lemma SellBase_trade (fc : @fee_config E) (x p : R) (a : @account E) :
    sane_account a -> sane_fees fc -> 0 < p -> 0 <= x ->
    exists ok a', @SellBase E fc x p a = Done (ok, a') /\
      (ok = false -> a' = a) /\
      (ok = true -> exists tr, tr_side tr = SELL /\ tr_price tr = p /\ fair_trade fc a tr /\ booked a tr a'
                               /\ rounded_near (base_unit a) x (tr_base tr)).
  Proof.
    intros Ha Hfc Hp Hx. pose proof Ha as [].
    destruct (rounded_near_exists (base_unit a) x) as [b Hb]; auto.
    destruct (rounded_down_exists (quote_unit a) (b * p)) as [c Hc]; auto.
    destruct (rounded_up_exists (quote_unit a)
      (Rmax (minimum_fee fc) (fixed_fee fc + relative_fee fc * c))) as [f Hf]; auto.
    pose proof (SellBase_exact fc x p a b c f Ha Hfc Hp Hx Hb Hc Hf) as HB.
    rewrite HB. clear HB.
    destruct (Rle_dec (base_unit a) b) as [H1|H1]; [|do 2 eexists; split; [reflexivity|]; split; congruence].
    destruct (Rle_dec b (base_balance a)) as [H3|H3];
      [|do 2 eexists; split; [reflexivity|]; split; congruence].
    destruct (Rle_dec (quote_unit a) (c - f)) as [H2|H2];
      [|do 2 eexists; split; [reflexivity|]; split; congruence].
    do 2 eexists; split; [reflexivity|]; split; [congruence|]. intros _.
    exists (Trade SELL p b c f).
    repeat match goal with |- _ /\ _ => split end; auto.
    - constructor; cbn; auto.
      + apply Hb.
      + apply (rounded_near_nonneg (base_unit a) x b); auto.
    - unfold booked; cbn. repeat split; try reflexivity. ring.
  Qed.

  Lemma rounded_near_of_whole u x y : 0 <= u -> whole_units u x -> rounded_near u x y -> y = x.
  Proof.
    intros Hu W H. apply (rounded_near_unique u x); auto. apply rounded_near_whole; auto.
  Qed.

  (** BuyAtQuote: never spends more than the request rounded to the quote unit, never buys
      more than the cap. *)
  Lemma BuyAtQuote_trade (fc : @fee_config E) (x p m : R) (a : @account E) :
    sane_account a -> sane_fees fc -> 0 < p -> 0 <= x -> 0 <= m ->
    exists ok a', @BuyAtQuote E fc x p m a = Done (ok, a') /\
      (ok = false -> a' = a) /\
      (ok = true -> exists tr, tr_side tr = BUY /\ tr_price tr = p /\ fair_trade fc a tr /\ booked a tr a'
         /\ tr_base tr <= m
         /\ exists q, rounded_near (quote_unit a) x q /\ tr_quote tr + tr_fee tr <= q).
  Proof.
    intros Ha Hfc Hp Hx Hm. pose proof Ha as [].
    unfold BuyAtQuote. cbn [fltb fleb fofZ exact].
    rewrite Rlt_bool_true by exact Hp. rewrite assert_true. cbn [bind].
    rewrite Rle_bool_true by exact Hx. rewrite assert_true. cbn [bind].
    pose proof (@Round_rounded x (quote_unit a) sa_quote_unit Hx) as Hq.
    set (q := @Round E x (quote_unit a)) in *.
    assert (Hq0 : 0 <= q) by (apply (rounded_near_nonneg (quote_unit a) x q); auto).
    destruct (Rlt_bool q (quote_unit a) || Rlt_bool (quote_balance a) q);
      [do 2 eexists; split; [reflexivity|]; split; congruence|].
    pose proof (@GetFee_due a fc q sa_quote_unit) as HF.
    set (F := @GetFee E a fc q) in *.
    destruct (Rle_bool_spec q F) as [HqF|HqF];
      [do 2 eexists; split; [reflexivity|]; split; congruence|].
    rewrite fmin_Rmin. cbn [fdiv fsub exact].
    pose proof (@Floor_rounded (Rmin ((q - F) / p) m) (base_unit a) sa_base_unit) as Hb.
    set (b := @Floor E (Rmin ((q - F) / p) m) (base_unit a)) in *.
    assert (Hdiv : 0 <= (q - F) / p).
    { apply Rmult_le_pos; [lra|]. left; apply Rinv_0_lt_compat; lra. }
    assert (Hb0 : 0 <= b).
    { apply (rounded_down_nonneg (base_unit a) (Rmin ((q - F) / p) m)); auto. apply Rmin_glb; auto. }
    destruct (Rlt_bool_spec b (base_unit a)) as [Hbu|Hbu];
      [do 2 eexists; split; [reflexivity|]; split; congruence|].
    destruct (BuyBase_trade fc b p a Ha Hfc Hp Hb0) as (ok & a' & HB & Hno & Hyes).
    rewrite HB. do 2 eexists; split; [reflexivity|]. split; [exact Hno|].
    intros Hok. destruct (Hyes Hok) as (tr & Hs & Hpr & Hfair & Hbook & Hnear).
    exists tr. repeat match goal with |- _ /\ _ => split end; auto.
    - assert (Eb : tr_base tr = b) by (apply (rounded_near_of_whole (base_unit a)); auto; apply Hb).
      rewrite Eb. apply rounded_down_le in Hb. eapply Rle_trans; [exact Hb|apply Rmin_r].
    - exists q. split; [exact Hq|].
      assert (Eb : tr_base tr = b) by (apply (rounded_near_of_whole (base_unit a)); auto; apply Hb).
      destruct Hfair as [_ _ _ Hc Hf _]. rewrite Hs, Hpr, Eb in *.
      assert (Hle : b * p <= q - F).
      { apply rounded_down_le in Hb. apply Rle_trans with ((q - F) / p * p).
        - apply Rmult_le_compat_r; [lra|]. eapply Rle_trans; [exact Hb|apply Rmin_l].
        - right; field; lra. }
      assert (Hc' : tr_quote tr <= q - F).
      { apply (rounded_up_le_whole (quote_unit a) (b * p)); auto.
        apply whole_units_minus; [apply Hq | apply HF]. }
      assert (HF0 : 0 <= F) by (apply (fee_due_nonneg fc (quote_unit a) q); auto).
      assert (tr_fee tr <= F).
      { apply (fee_due_mono fc (quote_unit a) (tr_quote tr) q); auto. lra. }
      lra.
  Qed.

  Lemma SellAtQuote_trade (fc : @fee_config E) (x p m : R) (a : @account E) :
    sane_account a -> sane_fees fc -> 0 < p -> 0 <= x -> 0 <= m ->
    exists ok a', @SellAtQuote E fc x p m a = Done (ok, a') /\
      (ok = false -> a' = a) /\
      (ok = true -> exists tr, tr_side tr = SELL /\ tr_price tr = p /\ fair_trade fc a tr /\ booked a tr a'
         /\ tr_base tr <= m
         /\ exists q, rounded_near (quote_unit a) x q /\ tr_quote tr - tr_fee tr <= q).
  Proof.
    intros Ha Hfc Hp Hx Hm. pose proof Ha as [].
    unfold SellAtQuote. cbn [fltb fleb fofZ exact].
    rewrite Rlt_bool_true by exact Hp. rewrite assert_true. cbn [bind].
    rewrite Rle_bool_true by exact Hx. rewrite assert_true. cbn [bind].
    pose proof (@Round_rounded x (quote_unit a) sa_quote_unit Hx) as Hq.
    set (q := @Round E x (quote_unit a)) in *.
    assert (Hq0 : 0 <= q) by (apply (rounded_near_nonneg (quote_unit a) x q); auto).
    destruct (Rlt_bool q (quote_unit a));
      [do 2 eexists; split; [reflexivity|]; split; congruence|].
    pose proof (@GetFee_due a fc q sa_quote_unit) as HF.
    set (F := @GetFee E a fc q) in *.
    assert (HF0 : 0 <= F) by (apply (fee_due_nonneg fc (quote_unit a) q); auto).
    rewrite fmin_Rmin. cbn [fdiv fadd exact].
    pose proof (@Floor_rounded (Rmin ((q + F) / p) m) (base_unit a) sa_base_unit) as Hb.
    set (b := @Floor E (Rmin ((q + F) / p) m) (base_unit a)) in *.
    assert (Hdiv : 0 <= (q + F) / p).
    { apply Rmult_le_pos; [lra|]. left; apply Rinv_0_lt_compat; lra. }
    assert (Hb0 : 0 <= b).
    { apply (rounded_down_nonneg (base_unit a) (Rmin ((q + F) / p) m)); auto. apply Rmin_glb; auto. }
    destruct (Rlt_bool_spec b (base_unit a)) as [Hbu|Hbu];
      [do 2 eexists; split; [reflexivity|]; split; congruence|].
    destruct (SellBase_trade fc b p a Ha Hfc Hp Hb0) as (ok & a' & HB & Hno & Hyes).
    rewrite HB. do 2 eexists; split; [reflexivity|]. split; [exact Hno|].
    intros Hok. destruct (Hyes Hok) as (tr & Hs & Hpr & Hfair & Hbook & Hnear).
    exists tr. repeat match goal with |- _ /\ _ => split end; auto.
    - assert (Eb : tr_base tr = b) by (apply (rounded_near_of_whole (base_unit a)); auto; apply Hb).
      rewrite Eb. apply rounded_down_le in Hb. eapply Rle_trans; [exact Hb|apply Rmin_r].
    - exists q. split; [exact Hq|].
      assert (Eb : tr_base tr = b) by (apply (rounded_near_of_whole (base_unit a)); auto; apply Hb).
      destruct Hfair as [_ _ _ Hc Hf _]. rewrite Hs, Hpr, Eb in *.
      assert (Hle : b * p <= q + F).
      { apply rounded_down_le in Hb. apply Rle_trans with ((q + F) / p * p).
        - apply Rmult_le_compat_r; [lra|]. eapply Rle_trans; [exact Hb|apply Rmin_l].
        - right; field; lra. }
      apply rounded_down_le in Hc.
      destruct (Rle_or_lt q (tr_quote tr)) as [L|L].
      + assert (F <= tr_fee tr).
        { apply (fee_due_mono fc (quote_unit a) q (tr_quote tr)); auto. }
        lra.
      + assert (0 <= tr_fee tr) by (apply (fee_due_nonneg fc (quote_unit a) (tr_quote tr)); auto).
        lra.
  Qed.

  Lemma between_bounds l x y : 0 <= l <= 1 -> x <= y -> x <= between l x y <= y.
  Proof.
    unfold between. intros Hl Hxy. split.
    - replace (l * x + (1 - l) * y) with (x + (1 - l) * (y - x)) by ring.
      assert (0 <= (1 - l) * (y - x)) by (apply Rmult_le_pos; lra). lra.
    - replace (l * x + (1 - l) * y) with (y - l * (y - x)) by ring.
      assert (0 <= l * (y - x)) by (apply Rmult_le_pos; lra). lra.
  Qed.
  Lemma between_bounds_down l x y : 0 <= l <= 1 -> y <= x -> y <= between l x y <= x.
  Proof.
    unfold between. intros Hl Hxy. split.
    - replace (l * x + (1 - l) * y) with (y + l * (x - y)) by ring.
      assert (0 <= l * (x - y)) by (apply Rmult_le_pos; lra). lra.
    - replace (l * x + (1 - l) * y) with (x - (1 - l) * (x - y)) by ring.
      assert (0 <= (1 - l) * (x - y)) by (apply Rmult_le_pos; lra). lra.
  Qed.

  (** The execution price of a triggered order stays on the right side of the tick. *)
  Lemma execution_price_bounds l ty sd limit (t : @ohlc_tick E) :
    0 <= l <= 1 -> sane_tick t -> triggered ty sd limit t -> (ty = MARKET \/ 0 < limit) ->
    match ty, sd with
    | MARKET, BUY => open t <= execution_price l ty sd limit t <= high t
    | MARKET, SELL => low t <= execution_price l ty sd limit t <= open t
    | STOP, BUY => Rmax limit (open t) <= execution_price l ty sd limit t <= high t
    | STOP, SELL => low t <= execution_price l ty sd limit t <= Rmin limit (open t)
    | LIMIT, _ => execution_price l ty sd limit t = limit
    end.
  Proof.
    intros Hl [] Ht Hlim. destruct ty, sd; cbn in *; auto.
    - apply between_bounds; auto.
    - apply between_bounds_down; auto.
    - apply between_bounds; auto. apply Rmax_lub; auto.
    - apply between_bounds_down; auto. apply Rmin_glb; auto.
  Qed.

  Lemma execution_price_pos l ty sd limit (t : @ohlc_tick E) :
    0 <= l <= 1 -> sane_tick t -> triggered ty sd limit t -> (ty = MARKET \/ 0 < limit) ->
    0 < execution_price l ty sd limit t.
  Proof.
    intros Hl Hst Ht Hlim. pose proof (execution_price_bounds l ty sd limit t Hl Hst Ht Hlim) as H.
    destruct Hst. destruct ty, sd; cbn [execution_price triggered] in *;
    repeat match goal with H : low t <= _ |- _ => unfold flt, exact in H end.
    - eapply Rlt_le_trans; [|apply H]. eapply Rlt_le_trans; [exact st_low|assumption].
    - eapply Rlt_le_trans; [|apply H]. assumption.
    - eapply Rlt_le_trans; [|apply H]. eapply Rlt_le_trans; [|apply Rmax_r].
      eapply Rlt_le_trans; [exact st_low|assumption].
    - eapply Rlt_le_trans; [|apply H]. assumption.
    - destruct Hlim; congruence || assumption.
    - destruct Hlim; congruence || assumption.
  Qed.

  Lemma GetMaxBaseAmount_cap (a : @account E) (t : @ohlc_tick E) :
    sane_account a -> volume_cap a t (@GetMaxBaseAmount E a t).
  Proof.
    intros []. unfold volume_cap, GetMaxBaseAmount. cbn [fltb fofZ exact].
    destruct (Rlt_dec 0 (max_volume_ratio a)) as [H|H].
    - rewrite Rlt_bool_true by exact H. apply Floor_rounded; auto.
    - rewrite Rlt_bool_false by (apply Rnot_lt_le; exact H). reflexivity.
  Qed.

  Lemma rmaxval_nonneg : 0 <= rmaxval.
  Proof. unfold rmaxval. apply IZR_le. vm_compute. discriminate. Qed.

  Lemma volume_cap_nonneg (a : @account E) (t : @ohlc_tick E) cap :
    sane_account a -> sane_tick t -> volume_cap a t cap -> 0 <= cap.
  Proof.
    intros [] []. unfold volume_cap. destruct (Rlt_dec 0 (max_volume_ratio a)) as [H|H].
    - intros Hc. apply (rounded_down_nonneg (base_unit a) (max_volume_ratio a * volume t)); auto.
      apply Rmult_le_pos; auto.
    - intros ->. apply rmaxval_nonneg.
  Qed.

  Lemma price_MB (a : @account E) t limit :
    @GetMarketBuyPrice E a t = execution_price (market_liquidity a) MARKET BUY limit t.
  Proof. reflexivity. Qed.
  Lemma price_MS (a : @account E) t limit :
    @GetMarketSellPrice E a t = execution_price (market_liquidity a) MARKET SELL limit t.
  Proof. reflexivity. Qed.
  Lemma price_SB (a : @account E) t limit :
    @GetStopBuyPrice E a t limit = execution_price (market_liquidity a) STOP BUY limit t.
  Proof. unfold GetStopBuyPrice. rewrite fmax_Rmax. reflexivity. Qed.
  Lemma price_SS (a : @account E) t limit :
    @GetStopSellPrice E a t limit = execution_price (market_liquidity a) STOP SELL limit t.
  Proof. unfold GetStopSellPrice. rewrite fmin_Rmin. reflexivity. Qed.

  Ltac reject := do 2 eexists; split; [reflexivity|]; split; congruence.
  Ltac finish_trade lem Htr :=
    let ok := fresh "ok" in let a' := fresh "a'" in
    let HB := fresh in let Hno := fresh in let Hyes := fresh in
    destruct lem as (ok & a' & HB & Hno & Hyes);
    exists ok, a'; split; [exact HB|]; split; [exact Hno|];
    let Hok := fresh in intros Hok; split; [exact Htr|];
    let tr := fresh "tr" in let H1 := fresh "Hside" in let H2 := fresh in
    let H3 := fresh in let H4 := fresh in let H5 := fresh "Hamount" in
    destruct (Hyes Hok) as (tr & H1 & H2 & H3 & H4 & H5);
    exists tr; split; [exact H1|]; split; [exact H2|];
    split; [exact H3|]; split; [exact H4|].
  Ltac trigger_check :=
    cbn [fltb fleb fofZ exact];
    rewrite Rlt_bool_true by assumption; rewrite assert_true; cbn [bind];
    rewrite Rle_bool_true by assumption; rewrite assert_true; cbn [bind];
    match goal with |- context [Rlt_bool ?u ?v] =>
      let Htr := fresh "Htr" in destruct (Rlt_bool_spec u v) as [Htr|Htr] end; [reject|].

  (** What one execution attempt does, in full. *)
  Theorem ExecuteOrder_trade (c : @account_config E) (o : @order E) (t : @ohlc_tick E)
          (a : @account E) ty sd limit am :
    sane_config c -> sane_account a -> sane_tick t -> order_parts o ty sd limit am ->
    exists ok a', @ExecuteOrder E c o t a = Done (ok, a') /\
      (ok = false -> a' = a) /\
      (ok = true ->
         triggered ty sd limit t /\
         exists tr, tr_side tr = sd
           /\ tr_price tr = execution_price (market_liquidity a) ty sd limit t
           /\ fair_trade (fees_of c ty) a tr
           /\ booked a tr a'
           /\ amount_respected a t ty am tr
           /\ (ty = LIMIT -> 0 < (max_volume_ratio a : R) ->
               tr_base tr <= max_volume_ratio a * volume t)).
  Proof.
    intros [Hm Hs Hl] Ha Ht Ho.
    destruct Ho as [am Hty Hsd Hpr Ham Hpos].
    assert (Hval : @IsValidOrder E o = true).
    { unfold IsValidOrder, has, is_market, get_type, get_price, is_base_amount, get_base_amount,
        is_quote_amount, get_quote_amount. rewrite Hty, Hsd, Ham. cbn [fltb fofZ exact andb].
      destruct am as [|x|x]; [contradiction| |];
        rewrite (Rlt_bool_true 0 x Hpos); cbn [andb orb];
        (destruct ty; cbn [orb]; auto; (destruct Hpr as [Hpr|[Hpr Hlim]]; [discriminate|];
         rewrite Hpr, (Rlt_bool_true 0 limit Hlim); reflexivity)). }
    assert (Hlimit : ty = MARKET \/ 0 < limit) by (destruct Hpr as [?|[_ ?]]; auto).
    pose proof Ha as [_ _ _ _ _ _ _ Hliq _].
    unfold ExecuteOrder. rewrite Hval, assert_true. cbn [bind].
    unfold get_type, get_side. rewrite Hty, Hsd.
    assert (Hprice : ty <> MARKET -> @get_price E o = limit).
    { intros Hne. unfold get_price. destruct Hpr as [?|[-> _]]; [contradiction|reflexivity]. }
    pose proof (fun h => execution_price_pos (market_liquidity a) ty sd limit t Hliq Ht h Hlimit) as Hep.
    pose proof (GetMaxBaseAmount_cap a t Ha) as Hcap.
    pose proof (volume_cap_nonneg a t _ Ha Ht Hcap) as Hcap0.
    set (cap := @GetMaxBaseAmount E a t) in *.
    assert (Hcaple : 0 < (max_volume_ratio a : R) -> cap <= max_volume_ratio a * volume t).
    { intros Hr. unfold volume_cap in Hcap.
      destruct (Rlt_dec 0 (max_volume_ratio a)); [|contradiction].
      apply (rounded_down_le (base_unit a)); exact Hcap. }
    unfold is_base_amount, is_quote_amount, get_base_amount, get_quote_amount. rewrite Ham.
    destruct am as [|x|x]; [contradiction| |].
    - (* base amounts *)
      assert (Hx : 0 <= x) by (apply Rlt_le; exact Hpos).
      assert (Hxc : 0 <= Rmin x cap) by (apply Rmin_glb; auto).
      assert (Hnearle : forall y, rounded_near (base_unit a) (Rmin x cap) y ->
                 0 < (max_volume_ratio a : R) -> y <= max_volume_ratio a * volume t).
      { intros y Hy Hr. eapply Rle_trans; [|apply Hcaple; exact Hr].
        unfold volume_cap in Hcap. destruct (Rlt_dec 0 (max_volume_ratio a)); [|contradiction].
        destruct Hcap as [Wcap _]. destruct Hy as [Wy Hy]. destruct Ha.
        pose proof (Rmin_r x cap) as Hmr.
        case_unit (base_unit a : R); [rewrite Hy; exact Hmr|].
        destruct (Rle_or_lt y cap) as [L|L]; auto.
        assert (Hup : 0 < base_unit a).
        { destruct sa_base_unit; [assumption|]. exfalso; apply Hu0; symmetry; assumption. }
        pose proof (@whole_units_lt (base_unit a) cap y Hup Wcap Wy L).
        exfalso. set (uu := (base_unit a : R)) in *. change (@flt E) with R in *. lra. }
      destruct ty, sd; cbn [is_buy negb]; try rewrite assert_true; cbn [bind].
      + unfold MarketBuy. rewrite (price_MB a t limit).
        finish_trade (BuyBase_trade (market_order_fee_config c) x _ a Ha Hm (Hep I) Hx) I.
        split; [exact Hamount|discriminate].
      + unfold MarketSell. rewrite (price_MS a t limit).
        finish_trade (SellBase_trade (market_order_fee_config c) x _ a Ha Hm (Hep I) Hx) I.
        split; [exact Hamount|discriminate].
      + unfold StopBuy. rewrite (Hprice ltac:(discriminate)). destruct Hlimit as [?|Hlp]; [discriminate|].
        trigger_check. rewrite (price_SB a t limit).
        finish_trade (BuyBase_trade (stop_order_fee_config c) x _ a Ha Hs (Hep Htr) Hx) Htr.
        split; [exact Hamount|discriminate].
      + unfold StopSell. rewrite (Hprice ltac:(discriminate)). destruct Hlimit as [?|Hlp]; [discriminate|].
        trigger_check. rewrite (price_SS a t limit).
        finish_trade (SellBase_trade (stop_order_fee_config c) x _ a Ha Hs (Hep Htr) Hx) Htr.
        split; [exact Hamount|discriminate].
      + unfold LimitBuy. rewrite (Hprice ltac:(discriminate)). destruct Hlimit as [?|Hlp]; [discriminate|].
        trigger_check. fold cap. rewrite fmin_Rmin.
        finish_trade (BuyBase_trade (limit_order_fee_config c) (Rmin x cap) _ a Ha Hl (Hep Htr) Hxc) Htr.
        split; [exists cap; auto|]. intros _. apply Hnearle; exact Hamount.
      + unfold LimitSell. rewrite (Hprice ltac:(discriminate)). destruct Hlimit as [?|Hlp]; [discriminate|].
        trigger_check. fold cap. rewrite fmin_Rmin.
        finish_trade (SellBase_trade (limit_order_fee_config c) (Rmin x cap) _ a Ha Hl (Hep Htr) Hxc) Htr.
        split; [exists cap; auto|]. intros _. apply Hnearle; exact Hamount.
    - (* quote amounts *)
      assert (Hx : 0 <= x) by (apply Rlt_le; exact Hpos).
      pose proof rmaxval_nonneg as Hmax.
      destruct ty, sd; cbn [is_buy negb]; rewrite ?assert_true; cbn [bind].
      + unfold MarketBuyAtQuote. rewrite (price_MB a t limit).
        finish_trade (BuyAtQuote_trade (market_order_fee_config c) x _ _ a Ha Hm (Hep I) Hx Hmax) I.
        destruct Hamount as (Hcapped & q & Hq & Hqle).
        split; [exists q; rewrite Hside; auto|discriminate].
      + unfold MarketSellAtQuote. rewrite (price_MS a t limit).
        finish_trade (SellAtQuote_trade (market_order_fee_config c) x _ _ a Ha Hm (Hep I) Hx Hmax) I.
        destruct Hamount as (Hcapped & q & Hq & Hqle).
        split; [exists q; rewrite Hside; auto|discriminate].
      + unfold StopBuyAtQuote. rewrite (Hprice ltac:(discriminate)).
        destruct Hlimit as [?|Hlp]; [discriminate|].
        trigger_check. rewrite (price_SB a t limit).
        finish_trade (BuyAtQuote_trade (stop_order_fee_config c) x _ _ a Ha Hs (Hep Htr) Hx Hmax) Htr.
        destruct Hamount as (Hcapped & q & Hq & Hqle).
        split; [exists q; rewrite Hside; auto|discriminate].
      + unfold StopSellAtQuote. rewrite (Hprice ltac:(discriminate)).
        destruct Hlimit as [?|Hlp]; [discriminate|].
        trigger_check. rewrite (price_SS a t limit).
        finish_trade (SellAtQuote_trade (stop_order_fee_config c) x _ _ a Ha Hs (Hep Htr) Hx Hmax) Htr.
        destruct Hamount as (Hcapped & q & Hq & Hqle).
        split; [exists q; rewrite Hside; auto|discriminate].
      + unfold LimitBuyAtQuote. rewrite (Hprice ltac:(discriminate)).
        destruct Hlimit as [?|Hlp]; [discriminate|].
        trigger_check. fold cap.
        finish_trade (BuyAtQuote_trade (limit_order_fee_config c) x _ cap a Ha Hl (Hep Htr) Hx Hcap0) Htr.
        destruct Hamount as (Hcapped & q & Hq & Hqle).
        split; [exists q; rewrite Hside; auto|].
        intros _ Hr. eapply Rle_trans; [exact Hcapped|auto].
      + unfold LimitSellAtQuote. rewrite (Hprice ltac:(discriminate)).
        destruct Hlimit as [?|Hlp]; [discriminate|].
        trigger_check. fold cap.
        finish_trade (SellAtQuote_trade (limit_order_fee_config c) x _ cap a Ha Hl (Hep Htr) Hx Hcap0) Htr.
        destruct Hamount as (Hcapped & q & Hq & Hqle).
        split; [exists q; rewrite Hside; auto|].
        intros _ Hr. eapply Rle_trans; [exact Hcapped|auto].
  Qed.

  Ltac decide_ok :=
    split; [intros Hok; try discriminate Hok; repeat split; assumption
           |intros Hall; try reflexivity; exfalso; tauto].

  (** When exactly a base order is executed. *)
  Theorem ExecuteOrder_base_iff (c : @account_config E) (o : @order E) (t : @ohlc_tick E)
          (a : @account E) ty sd limit x r b q f :
    sane_config c -> sane_account a -> sane_tick t ->
    order_parts o ty sd limit (@BaseAmount E x) ->
    asked_base a t ty x r ->
    rounded_near (base_unit a) r b ->
    (match sd with BUY => rounded_up (quote_unit a) (b * execution_price (market_liquidity a) ty sd limit t) q
                 | SELL => rounded_down (quote_unit a) (b * execution_price (market_liquidity a) ty sd limit t) q
     end) ->
    fee_due (fees_of c ty) (quote_unit a) q f ->
    exists ok a', @ExecuteOrder E c o t a = Done (ok, a') /\
      (ok = true <->
         triggered ty sd limit t /\ (base_unit a : R) <= b /\
         match sd with
         | BUY => q + f <= quote_balance a
         | SELL => b <= base_balance a /\ (quote_unit a : R) <= q - f
         end).
  Proof.
    intros [Hm Hs Hl] Ha Ht Ho Hr Hb Hq Hf.
    inversion Ho as [am Hty Hsd Hpr Ham Hpos]; subst am.
    assert (Hval : @IsValidOrder E o = true).
    { unfold IsValidOrder, has, is_market, get_type, get_price, is_base_amount, get_base_amount,
        is_quote_amount, get_quote_amount. rewrite Hty, Hsd, Ham. cbn [fltb fofZ exact andb].
      rewrite (Rlt_bool_true 0 x Hpos); cbn [andb orb].
      destruct ty; cbn [orb]; auto; (destruct Hpr as [Hpr|[Hpr Hlim]]; [discriminate|];
         rewrite Hpr, (Rlt_bool_true 0 limit Hlim); reflexivity). }
    assert (Hlimit : ty = MARKET \/ 0 < limit) by (destruct Hpr as [?|[_ ?]]; auto).
    pose proof Ha as [_ _ _ _ _ _ _ Hliq _].
    unfold ExecuteOrder. rewrite Hval, assert_true. cbn [bind].
    unfold get_type, get_side. rewrite Hty, Hsd.
    assert (Hprice : ty <> MARKET -> @get_price E o = limit).
    { intros Hne. unfold get_price. destruct Hpr as [?|[-> _]]; [contradiction|reflexivity]. }
    pose proof (fun h => execution_price_pos (market_liquidity a) ty sd limit t Hliq Ht h Hlimit) as Hep.
    pose proof (GetMaxBaseAmount_cap a t Ha) as Hcap.
    pose proof (volume_cap_nonneg a t _ Ha Ht Hcap) as Hcap0.
    set (cap := @GetMaxBaseAmount E a t) in *.
    unfold is_base_amount, get_base_amount. rewrite Ham.
    assert (Hx : 0 <= x) by (apply Rlt_le; exact Hpos).
    assert (Hxc : 0 <= Rmin x cap) by (apply Rmin_glb; auto).
    assert (Hr' : r = match ty with LIMIT => Rmin x cap | _ => x end).
    { destruct ty; cbn in Hr; auto. destruct Hr as (cap' & Hc' & ->). f_equal.
      unfold volume_cap in *. destruct (Rlt_dec 0 (max_volume_ratio a)).
      - apply (rounded_down_unique (base_unit a) (max_volume_ratio a * volume t)); auto. apply Ha.
      - congruence. }
    clear Hr. subst r.
    destruct ty, sd; cbn [is_buy negb]; rewrite ?assert_true; cbn [bind].
    - unfold MarketBuy. rewrite (price_MB a t limit).
      rewrite (BuyBase_exact _ x _ a b q f Ha Hm (Hep I) Hx Hb Hq Hf).
      repeat match goal with |- context [Rle_dec ?u ?v] => destruct (Rle_dec u v) end; do 2 eexists; (split; [reflexivity|]); decide_ok.
    - unfold MarketSell. rewrite (price_MS a t limit).
      rewrite (SellBase_exact _ x _ a b q f Ha Hm (Hep I) Hx Hb Hq Hf).
      repeat match goal with |- context [Rle_dec ?u ?v] => destruct (Rle_dec u v) end; do 2 eexists; (split; [reflexivity|]); decide_ok.
    - unfold StopBuy. rewrite (Hprice ltac:(discriminate)). destruct Hlimit as [?|Hlp]; [discriminate|].
      cbn [fltb fleb fofZ exact].
      rewrite Rlt_bool_true by assumption; rewrite assert_true; cbn [bind];
      rewrite Rle_bool_true by assumption; rewrite assert_true; cbn [bind].
      destruct (Rlt_bool_spec (high t) limit) as [Htr|Htr].
      { do 2 eexists; split; [reflexivity|]. split; [discriminate|]. intros [Hc _].
        cbn [triggered] in Hc. exfalso. apply (Rlt_not_le _ _ Htr Hc). }
      rewrite (price_SB a t limit).
      rewrite (BuyBase_exact _ x _ a b q f Ha Hs (Hep Htr) Hx Hb Hq Hf).
      repeat match goal with |- context [Rle_dec ?u ?v] => destruct (Rle_dec u v) end; do 2 eexists; (split; [reflexivity|]); decide_ok.
    - unfold StopSell. rewrite (Hprice ltac:(discriminate)). destruct Hlimit as [?|Hlp]; [discriminate|].
      cbn [fltb fleb fofZ exact].
      rewrite Rlt_bool_true by assumption; rewrite assert_true; cbn [bind];
      rewrite Rle_bool_true by assumption; rewrite assert_true; cbn [bind].
      destruct (Rlt_bool_spec limit (low t)) as [Htr|Htr].
      { do 2 eexists; split; [reflexivity|]. split; [discriminate|]. intros [Hc _].
        cbn [triggered] in Hc. exfalso. apply (Rlt_not_le _ _ Htr Hc). }
      rewrite (price_SS a t limit).
      rewrite (SellBase_exact _ x _ a b q f Ha Hs (Hep Htr) Hx Hb Hq Hf).
      repeat match goal with |- context [Rle_dec ?u ?v] => destruct (Rle_dec u v) end; do 2 eexists; (split; [reflexivity|]); decide_ok.
    - unfold LimitBuy. rewrite (Hprice ltac:(discriminate)). destruct Hlimit as [?|Hlp]; [discriminate|].
      cbn [fltb fleb fofZ exact].
      rewrite Rlt_bool_true by assumption; rewrite assert_true; cbn [bind];
      rewrite Rle_bool_true by assumption; rewrite assert_true; cbn [bind].
      destruct (Rlt_bool_spec limit (low t)) as [Htr|Htr].
      { do 2 eexists; split; [reflexivity|]. split; [discriminate|]. intros [Hc _].
        cbn [triggered] in Hc. exfalso. apply (Rlt_not_le _ _ Htr Hc). }
      fold cap. rewrite fmin_Rmin.
      rewrite (BuyBase_exact (limit_order_fee_config c) (Rmin x cap) limit a b q f Ha Hl (Hep Htr) Hxc Hb Hq Hf).
      repeat match goal with |- context [Rle_dec ?u ?v] => destruct (Rle_dec u v) end; do 2 eexists; (split; [reflexivity|]); decide_ok.
    - unfold LimitSell. rewrite (Hprice ltac:(discriminate)). destruct Hlimit as [?|Hlp]; [discriminate|].
      cbn [fltb fleb fofZ exact].
      rewrite Rlt_bool_true by assumption; rewrite assert_true; cbn [bind];
      rewrite Rle_bool_true by assumption; rewrite assert_true; cbn [bind].
      destruct (Rlt_bool_spec (high t) limit) as [Htr|Htr].
      { do 2 eexists; split; [reflexivity|]. split; [discriminate|]. intros [Hc _].
        cbn [triggered] in Hc. exfalso. apply (Rlt_not_le _ _ Htr Hc). }
      fold cap. rewrite fmin_Rmin.
      rewrite (SellBase_exact (limit_order_fee_config c) (Rmin x cap) limit a b q f Ha Hl (Hep Htr) Hxc Hb Hq Hf).
      repeat match goal with |- context [Rle_dec ?u ?v] => destruct (Rle_dec u v) end; do 2 eexists; (split; [reflexivity|]); decide_ok.
  Qed.

  (** A fair trade keeps the account sane. *)
  Lemma booked_sane (fc : @fee_config E) (a : @account E) tr a' :
    sane_account a -> sane_fees fc -> fair_trade fc a tr -> booked a tr a' -> sane_account a'.
  Proof.
    intros Ha Hfc [Hbw Hbm Hb0 Hq Hf Hcov] Hbk.
    pose proof (fee_due_nonneg fc _ _ _ Hfc Hf) as Hf0.
    assert (Hfw : whole_units (quote_unit a) (tr_fee tr)) by apply Hf.
    assert (Hqw : whole_units (quote_unit a) (tr_quote tr)) by (destruct (tr_side tr); apply Hq).
    destruct Ha as [Hbu Hqu Hb Hqq Hwb Hwq Hwf Hl Hr].
    destruct Hbk as (Hbal & Hfee & H1 & H2 & H3 & H4).
    cbn [flt exact] in *.
    destruct (tr_side tr); destruct Hbal as [E1 E2];
      constructor; rewrite ?H1, ?H2, ?H3, ?H4, ?E1, ?E2, ?Hfee; auto; try lra;
      auto using whole_units_plus, whole_units_minus.
  Qed.

  Lemma booked_value (fc : @fee_config E) (a : @account E) tr a' :
    fair_trade fc a tr -> booked a tr a' ->
    value_with_fees a' (tr_price tr) <= value_with_fees a (tr_price tr).
  Proof.
    intros [Hbw Hbm Hb0 Hq Hf Hcov] (Hbal & Hfee & _). unfold value_with_fees. rewrite Hfee.
    cbn [flt exact] in *.
    destruct (tr_side tr); destruct Hbal as [-> ->].
    - apply rounded_up_ge in Hq. ring_simplify. ring_simplify in Hq. lra.
    - apply rounded_down_le in Hq. ring_simplify. ring_simplify in Hq. lra.
  Qed.

  Lemma booked_all_ledger (a : @account E) trs a' :
    booked_all a trs a' ->
    (base_balance a' : R) = base_balance a + sum_base trs /\
    (quote_balance a' : R) = quote_balance a + sum_quote trs - sum_fees trs /\
    (total_fee a' : R) = total_fee a + sum_fees trs.
  Proof.
    induction 1 as [a|a fc tr a1 trs a2 Hfair Hbk _ (IH1 & IH2 & IH3)];
      unfold sum_base, sum_quote, sum_fees in *; cbn [fold_right fst snd].
    - repeat split; ring_R.
    - destruct Hbk as (Hbal & Hfee & _). cbn [flt exact] in *.
      destruct (tr_side tr); destruct Hbal as [E1 E2]; rewrite IH1, IH2, IH3, E1, E2, Hfee;
        repeat split; ring_R.
  Qed.

  Lemma booked_all_fees_nonneg (a : @account E) trs a' :
    booked_all a trs a' -> Forall (fun x => sane_fees (fst x)) trs ->
    Forall (fun x => 0 <= tr_fee (snd x)) trs /\ 0 <= sum_fees trs.
  Proof.
    induction 1 as [a|a fc tr a1 trs a2 Hfair Hbk _ IH]; intros HF;
      unfold sum_fees in *; cbn [fold_right fst snd].
    - split; [constructor|lra].
    - inversion HF as [|? ? H1 H2]; subst; cbn in *.
      destruct (IH H2) as [IH1 IH2]. destruct Hfair.
      pose proof (fee_due_nonneg fc _ _ _ H1 ft_fee). split; [constructor; auto|]. lra.
  Qed.

  Lemma booked_all_value (a : @account E) trs a' p :
    booked_all a trs a' -> Forall (fun x => tr_price (snd x) = p) trs ->
    value_with_fees a' p <= value_with_fees a p.
  Proof.
    induction 1 as [a|a fc tr a1 trs a2 Hfair Hbk _ IH]; intros HF; [lra|].
    inversion HF as [|? ? H1 H2]; subst; cbn in *.
    eapply Rle_trans; [apply IH; exact H2|]. eapply booked_value; eauto.
  Qed.

  (** Every sequence of well-formed orders over sane ticks runs through and is a list of
      fair trades. *)
  Theorem exec_all_trades (c : @account_config E) (l : list (@order E * @ohlc_tick E)) (a : @account E) :
    sane_config c -> sane_account a ->
    Forall (fun ot => well_formed (fst ot) /\ sane_tick (snd ot)) l ->
    exists trs a', exec_all (@ExecuteOrder E c) a l = Done a' /\ booked_all a trs a'
      /\ sane_account a' /\ Forall (fun x => sane_fees (fst x)) trs
      /\ (length trs <= length l)%nat.
  Proof.
    intros Hc Ha HF. revert a Ha. induction HF as [|[o t] l [Hwf Ht] _ IH]; intros a Ha.
    - exists [], a. cbn. repeat split; auto; try apply Ha; constructor.
    - destruct Hwf as (ty & sd & limit & am & Hp).
      destruct (ExecuteOrder_trade c o t a ty sd limit am Hc Ha Ht Hp) as (ok & a1 & HE & Hno & Hyes).
      assert (Hsf : sane_fees (fees_of c ty)) by (destruct Hc, ty; assumption).
      cbn [fst snd] in *. unfold exec_all in *. cbn [foldM fst snd]. rewrite HE. cbn [bind snd].
      destruct ok.
      + destruct (Hyes eq_refl) as (_ & tr & _ & _ & Hfair & Hbk & _).
        assert (Ha1 : sane_account a1) by (eapply booked_sane; eauto).
        destruct (IH a1 Ha1) as (trs & a' & H1 & H2 & H3 & H4 & H5).
        exists ((fees_of c ty, tr) :: trs), a'. repeat split; auto; try (econstructor; eauto; fail).
        all: try apply H3. cbn; lia.
      + rewrite (Hno eq_refl). destruct (IH a Ha) as (trs & a' & H1 & H2 & H3 & H4 & H5).
        exists trs, a'. repeat split; auto; try apply H3. cbn; lia.
  Qed.

  Lemma execute_true (c : @account_config E) (o : @order E) (t : @ohlc_tick E)
        (a a' : @account E) ty sd limit am :
    sane_config c -> sane_account a -> sane_tick t -> order_parts o ty sd limit am ->
    @ExecuteOrder E c o t a = Done (true, a') ->
    triggered ty sd limit t /\
    exists tr, tr_side tr = sd
      /\ tr_price tr = execution_price (market_liquidity a) ty sd limit t
      /\ fair_trade (fees_of c ty) a tr
      /\ booked a tr a'
      /\ amount_respected a t ty am tr
      /\ (ty = LIMIT -> 0 < (max_volume_ratio a : R) ->
          tr_base tr <= max_volume_ratio a * volume t).
  Proof.
    intros Hc Ha Ht Ho H. destruct (ExecuteOrder_trade c o t a ty sd limit am Hc Ha Ht Ho)
      as (ok' & a'' & H' & _ & Htr). rewrite H in H'. injection H' as <- <-. auto.
  Qed.

  Lemma buy_at_quote_spends (c : @account_config E) (o : @order E) (t : @ohlc_tick E)
        (a a' : @account E) ty limit (x : R) :
    sane_config c -> sane_account a -> sane_tick t ->
    order_parts o ty BUY limit (@QuoteAmount E x) ->
    @ExecuteOrder E c o t a = Done (true, a') ->
    let spent := (quote_balance a : R) - quote_balance a' in
    (exists q, rounded_near (quote_unit a) x q /\ spent <= q) /\
    spent <= x + quote_unit a / 2 /\
    (whole_units (quote_unit a) x -> spent <= x).
  Proof.
    intros Hc Ha Ht Ho H spent.
    destruct (execute_true c o t a a' ty BUY limit _ Hc Ha Ht Ho H) as (_ & tr & Hs & Hp & Hf & Hb & Ham & _).
    unfold booked in Hb. cbn [amount_respected] in Ham.
    destruct Ham as (q & Hq & Hle). rewrite Hs in Hle, Hb. destruct Hb as ((_ & Hqb) & _).
    pose proof (sa_quote_unit a Ha) as Hu.
    assert (Hsq : spent <= q) by (unfold spent; rewrite Hqb; cbn [flt exact] in *; lra).
    split; [eauto|]. split.
    - pose proof (rounded_near_le _ _ _ Hu Hq). lra.
    - intros W. rewrite (rounded_near_of_whole _ _ _ Hu W Hq) in Hsq. exact Hsq.
  Qed.

  Lemma sell_at_quote_receives (c : @account_config E) (o : @order E) (t : @ohlc_tick E)
        (a a' : @account E) ty limit (x : R) :
    sane_config c -> sane_account a -> sane_tick t ->
    order_parts o ty SELL limit (@QuoteAmount E x) ->
    @ExecuteOrder E c o t a = Done (true, a') ->
    let received := (quote_balance a' : R) - quote_balance a in
    (exists q, rounded_near (quote_unit a) x q /\ received <= q) /\
    received <= x + quote_unit a / 2 /\
    (whole_units (quote_unit a) x -> received <= x).
  Proof.
    intros Hc Ha Ht Ho H spent.
    destruct (execute_true c o t a a' ty SELL limit _ Hc Ha Ht Ho H) as (_ & tr & Hs & Hp & Hf & Hb & Ham & _).
    unfold booked in Hb. cbn [amount_respected] in Ham.
    destruct Ham as (q & Hq & Hle). rewrite Hs in Hle, Hb. destruct Hb as ((_ & Hqb) & _).
    pose proof (sa_quote_unit a Ha) as Hu.
    assert (Hsq : spent <= q) by (unfold spent; rewrite Hqb; cbn [flt exact] in *; lra).
    split; [eauto|]. split.
    - pose proof (rounded_near_le _ _ _ Hu Hq). lra.
    - intros W. rewrite (rounded_near_of_whole _ _ _ Hu W Hq) in Hsq. exact Hsq.
  Qed.

  Lemma limit_pos (o : @order E) ty sd limit am : order_parts o ty sd limit am -> ty = MARKET \/ 0 < limit.
  Proof. intros [? _ _ [?|[_ ?]] _ _]; auto. Qed.

  Lemma market_order_price (c : @account_config E) (o : @order E) (t : @ohlc_tick E)
        (a a' : @account E) sd limit am :
    sane_config c -> sane_account a -> sane_tick t -> order_parts o MARKET sd limit am ->
    @ExecuteOrder E c o t a = Done (true, a') ->
    exists tr, tr_side tr = sd /\ fair_trade (market_order_fee_config c) a tr /\ booked a tr a' /\
      match sd with
      | BUY => (open t : R) <= tr_price tr <= high t
      | SELL => (low t : R) <= tr_price tr <= open t
      end /\
      ((market_liquidity a : R) = 1 -> tr_price tr = open t) /\
      ((market_liquidity a : R) = 0 -> tr_price tr = match sd with BUY => high t | SELL => low t end).
  Proof.
    intros Hc Ha Ht Ho H.
    destruct (execute_true c o t a a' _ sd limit _ Hc Ha Ht Ho H) as (Hg & tr & Hs & Hp & Hf & Hb & _).
    exists tr. split; [exact Hs|]. split; [exact Hf|]. split; [exact Hb|]. split; [|split].
    - pose proof (execution_price_bounds (market_liquidity a) MARKET sd limit t (sa_liquidity a Ha) Ht Hg (limit_pos _ _ _ _ _ Ho)) as B.
      rewrite Hp. destruct sd; exact B.
    - intros L. rewrite Hp. cbn [execution_price]. unfold between. rewrite L. cbn [flt exact].
      destruct sd; cbn [flt exact]; lra.
    - intros L. rewrite Hp. cbn [execution_price]. unfold between. rewrite L. cbn [flt exact].
      destruct sd; cbn [flt exact]; lra.
  Qed.

  Lemma liquidity_price (a1 a2 : @account E) (t : @ohlc_tick E) :
    sane_tick t -> (market_liquidity a1 : R) <= market_liquidity a2 ->
    (@GetMarketBuyPrice E a2 t : R) <= @GetMarketBuyPrice E a1 t /\
    (@GetMarketSellPrice E a1 t : R) <= @GetMarketSellPrice E a2 t.
  Proof.
    intros [H1 H2 H3 H4 H5 H6] Hl. unfold GetMarketBuyPrice, GetMarketSellPrice. cbn [fadd fsub fmul fofZ exact flt] in *.
    split; nra.
  Qed.

  Lemma stop_order_price (c : @account_config E) (o : @order E) (t : @ohlc_tick E)
        (a a' : @account E) sd stop am :
    sane_config c -> sane_account a -> sane_tick t -> order_parts o STOP sd stop am ->
    @ExecuteOrder E c o t a = Done (true, a') ->
    exists tr, tr_side tr = sd /\ fair_trade (stop_order_fee_config c) a tr /\ booked a tr a' /\
      match sd with
      | BUY => stop <= high t /\ stop <= tr_price tr /\ (open t : R) <= tr_price tr <= high t
      | SELL => (low t : R) <= stop /\ tr_price tr <= stop /\ (low t : R) <= tr_price tr <= open t
      end.
  Proof.
    intros Hc Ha Ht Ho H.
    destruct (execute_true c o t a a' _ sd stop _ Hc Ha Ht Ho H) as (Hg & tr & Hs & Hp & Hf & Hb & _).
    exists tr. split; [auto|]. split; [auto|]. split; [auto|].
    pose proof (execution_price_bounds (market_liquidity a) STOP sd stop t (sa_liquidity a Ha) Ht Hg (limit_pos _ _ _ _ _ Ho)) as B.
    rewrite Hp. destruct sd; cbn [triggered] in Hg; cbv beta iota in B.
    - pose proof (Rmax_l stop (open t)). pose proof (Rmax_r stop (open t)). repeat split; auto; lra.
    - pose proof (Rmin_l stop (open t)). pose proof (Rmin_r stop (open t)). repeat split; auto; lra.
  Qed.

  Lemma limit_order_price (c : @account_config E) (o : @order E) (t : @ohlc_tick E)
        (a a' : @account E) sd limit am :
    sane_config c -> sane_account a -> sane_tick t -> order_parts o LIMIT sd limit am ->
    @ExecuteOrder E c o t a = Done (true, a') ->
    exists tr, tr_side tr = sd /\ fair_trade (limit_order_fee_config c) a tr /\ booked a tr a' /\
      tr_price tr = limit /\
      match sd with BUY => (low t : R) <= limit | SELL => limit <= high t end /\
      (0 < (max_volume_ratio a : R) -> tr_base tr <= max_volume_ratio a * volume t).
  Proof.
    intros Hc Ha Ht Ho H.
    destruct (execute_true c o t a a' _ sd limit _ Hc Ha Ht Ho H) as (Hg & tr & Hs & Hp & Hf & Hb & _ & Hv).
    exists tr. split; [exact Hs|]. split; [exact Hf|]. split; [exact Hb|]. split; [exact Hp|]. split; [|auto].
    destruct sd; exact Hg.
  Qed.

  Lemma exec_all_fees (c : @account_config E) (l : list (@order E * @ohlc_tick E)) (a : @account E) :
    sane_config c -> sane_account a ->
    Forall (fun ot => well_formed (fst ot) /\ sane_tick (snd ot)) l ->
    exists trs a', exec_all (@ExecuteOrder E c) a l = Done a' /\ booked_all a trs a' /\
      (length trs <= length l)%nat /\
      Forall (fun x => 0 <= tr_fee (snd x)) trs /\
      (total_fee a' : R) = total_fee a + sum_fees trs /\
      (total_fee a : R) <= total_fee a' /\
      (base_balance a' : R) = base_balance a + sum_base trs /\
      (quote_balance a' : R) = quote_balance a + sum_quote trs - sum_fees trs.
  Proof.
    intros Hc Ha Hl. destruct (exec_all_trades c l a Hc Ha Hl) as (trs & a' & H & Hb & _ & Hs & Hlen).
    exists trs, a'. destruct (booked_all_ledger a trs a' Hb) as (L1 & L2 & L3).
    destruct (booked_all_fees_nonneg a trs a' Hb Hs) as (P1 & P2).
    repeat split; auto. rewrite L3. cbn [flt exact] in *. lra.
  Qed.

  Lemma booked_all_units (a : @account E) trs a' :
    booked_all a trs a' -> base_unit a' = base_unit a /\ quote_unit a' = quote_unit a.
  Proof.
    induction 1 as [|a fc tr a1 trs a2 _ Hb _ [IH1 IH2]]; [auto|].
    destruct Hb as (_ & _ & E1 & E2 & _). split; congruence.
  Qed.

  Lemma exec_all_whole_exact (c : @account_config E) (l : list (@order E * @ohlc_tick E)) (a : @account E) :
    sane_config c -> sane_account a ->
    Forall (fun ot => well_formed (fst ot) /\ sane_tick (snd ot)) l ->
    exists a', exec_all (@ExecuteOrder E c) a l = Done a' /\
      0 <= (base_balance a' : R) /\ 0 <= (quote_balance a' : R) /\
      whole_units (base_unit a) (base_balance a') /\
      whole_units (quote_unit a) (quote_balance a') /\
      whole_units (quote_unit a) (total_fee a').
  Proof.
    intros Hc Ha Hl. destruct (exec_all_trades c l a Hc Ha Hl) as (trs & a' & H & Hb & Hs & _ & Hlen).
    destruct (booked_all_units a trs a' Hb) as (<- & <-).
    exists a'. destruct Hs. repeat split; auto.
  Qed.
End Exact.
