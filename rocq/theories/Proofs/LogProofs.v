(** Lines and columns of the log files. *)
From Coq Require Import ZArith Bool String Ascii Lia DecimalString DecimalZ Decimal.
From Coq Require Import List.
From Flocq Require Import Core BinarySingleNaN.
From Verif.Model Require Import Outcome Machine Types Account Eval Traders CsvLogger Convert MachineIEEE.
From Verif.Spec Require Import LogSpec RunSpec.
Import ListNotations.
Local Open Scope string_scope.

Lemma append_assoc_s a b c : (a ++ b) ++ c = a ++ (b ++ c).
Proof. induction a as [|x a IH]; cbn; [reflexivity|]. rewrite IH. reflexivity. Qed.
Lemma append_nil_s a : a ++ "" = a.
Proof. induction a as [|x a IH]; cbn; [reflexivity|]. rewrite IH. reflexivity. Qed.

(** The characters of a string. *)
Fixpoint chars (P : ascii -> Prop) (s : string) : Prop :=
  match s with EmptyString => True | String a s' => P a /\ chars P s' end.

Lemma chars_app P a b : chars P (a ++ b) <-> chars P a /\ chars P b.
Proof. induction a as [|x a IH]; cbn; [tauto|]. rewrite IH. tauto. Qed.

Lemma chars_imp (P Q : ascii -> Prop) s : (forall a, P a -> Q a) -> chars P s -> chars Q s.
Proof. intros H. induction s as [|x s IH]; cbn; [auto|]. intros [H1 H2]; auto. Qed.

Definition free (c : ascii) (s : string) : Prop := chars (fun a => a <> c) s.

Lemma split_free c s : free c s -> split c s = [s].
Proof.
  induction s as [|a s IH]; cbn; [reflexivity|]. intros [Ha Hs].
  destruct (Ascii.eqb_spec a c); [contradiction|]. rewrite (IH Hs). reflexivity.
Qed.

Lemma split_app c s rest : free c s -> split c (s ++ String c rest) = s :: split c rest.
Proof.
  induction s as [|a s IH]; cbn; [rewrite Ascii.eqb_refl; reflexivity|]. intros [Ha Hs].
  destruct (Ascii.eqb_spec a c); [contradiction|]. rewrite (IH Hs). reflexivity.
Qed.

Lemma text_cons l ls : text (l :: ls) = l ++ String line_feed (text ls).
Proof.
  unfold text. cbn [map]. destruct ls as [|l' ls]; cbn [map String.concat].
  - reflexivity.
  - rewrite append_assoc_s. reflexivity.
Qed.

Lemma text_app a b : text (a ++ b) = text a ++ text b.
Proof.
  induction a as [|l a IH]; [reflexivity|].
  cbn [app]. rewrite !text_cons, IH, append_assoc_s. reflexivity.
Qed.

Lemma split_text ls : Forall (free line_feed) ls -> split line_feed (text ls) = (ls ++ [""])%list.
Proof.
  induction 1 as [|l ls Hl _ IH]; [reflexivity|].
  rewrite text_cons, split_app by exact Hl. rewrite IH. reflexivity.
Qed.

(** The characters of printed numbers. *)
Definition numeric (a : ascii) : Prop := a <> comma /\ a <> line_feed /\ a <> ":"%char.

Lemma numeric_free_comma s : chars numeric s -> free comma s.
Proof. apply chars_imp. intros a H. apply H. Qed.
Lemma numeric_free_lf s : chars numeric s -> free line_feed s.
Proof. apply chars_imp. intros a H. apply H. Qed.
Lemma numeric_free_colon s : chars numeric s -> free ":" s.
Proof. apply chars_imp. intros a H. apply H. Qed.

Lemma uint_chars d : chars numeric (NilEmpty.string_of_uint d).
Proof.
  induction d; cbn; (exact I || (split; [|assumption])); unfold numeric, comma, line_feed; cbn; repeat split; discriminate.
Qed.
Lemma uint_chars0 d : chars numeric (NilZero.string_of_uint d).
Proof.
  destruct d; try apply uint_chars. cbn. unfold numeric, comma, line_feed; cbn; repeat split; discriminate.
Qed.
Lemma int_chars d : chars numeric (NilZero.string_of_int d).
Proof.
  destruct d; cbn; [apply uint_chars0|split; [|apply uint_chars0]].
  unfold numeric, comma, line_feed; cbn; repeat split; discriminate.
Qed.
Lemma fmt_d_chars z : chars numeric (fmt_d z).
Proof. apply int_chars. Qed.

Lemma digit_cases z : exists n, (n < 10)%nat /\ digit (z mod 10) = ascii_of_nat (48 + n).
Proof.
  pose proof (Z.mod_pos_bound z 10 ltac:(lia)) as H. exists (Z.to_nat (z mod 10)).
  split; [lia|]. unfold digit, ascii_of_nat. f_equal. lia.
Qed.

Lemma digit_numeric z : numeric (digit (z mod 10)).
Proof.
  destruct (digit_cases z) as (n & Hn & ->).
  do 10 (destruct n as [|n]; [unfold numeric, comma, line_feed; cbn; repeat split; discriminate|]). lia.
Qed.

Lemma fmt3_chars x : chars numeric (f32_fmt3 x).
Proof.
  assert (H : forall s n, chars numeric (fmt3_thousandths s n)).
  { intros s n. unfold fmt3_thousandths. rewrite !chars_app. split; [|split].
    - destruct s; cbn; [|exact I]. split; [|exact I].
      unfold numeric, comma, line_feed; cbn; repeat split; discriminate.
    - apply int_chars.
    - cbn. split; [unfold numeric, comma, line_feed; cbn; repeat split; discriminate|].
      repeat split; try apply digit_numeric; exact I. }
  destruct x as [s|s| |s m e He]; cbn [f32_fmt3]; try apply H;
    try destruct s; cbn; unfold numeric, comma, line_feed; cbn; repeat split; discriminate.
Qed.

(** * Columns of the exchange log *)

Fixpoint join (cols : list string) : string :=
  match cols with
  | [] => ""
  | [c] => c
  | c :: cols' => c ++ "," ++ join cols'
  end.

Lemma split_join cols : cols <> [] -> Forall (free comma) cols -> split comma (join cols) = cols.
Proof.
  induction cols as [|c cols IH]; intros Hne H; [congruence|].
  inversion H; subst. destruct cols as [|c' cols].
  - cbn [join]. apply split_free. assumption.
  - change (join (c :: c' :: cols)) with (c ++ String comma (join (c' :: cols))).
    rewrite split_app by assumption. rewrite IH; [reflexivity|discriminate|assumption].
Qed.

Lemma join_free ch cols : ch <> comma -> Forall (free ch) cols -> free ch (join cols).
Proof.
  intros Hc H. induction H as [|c cols Hf _ IH]; [exact I|]. destruct cols as [|c' cols].
  - exact Hf.
  - change (join (c :: c' :: cols)) with (c ++ String comma (join (c' :: cols))).
    apply chars_app. split; [exact Hf|]. cbn. split; [congruence|exact IH].
Qed.

Section Lines.
  Context {M : machine}.

  Definition tick_cols (t : ohlc_tick) : list string :=
    [fmt_d (timestamp_sec t); ffmt3 (open t); ffmt3 (high t); ffmt3 (low t); ffmt3 (close t); ffmt3 (volume t)].
  Definition account_cols (a : account) : list string :=
    [ffmt3 (base_balance a); ffmt3 (quote_balance a); ffmt3 (total_fee a)].
  Definition order_cols (o : order) : list string :=
    [Type_Name (get_type o); Side_Name (get_side o);
     (if is_base_amount o then ffmt3 (get_base_amount o) else "");
     (if is_quote_amount o then ffmt3 (get_quote_amount o) else "");
     (if fltb (fofZ 0) (get_price o) then ffmt3 (get_price o) else "")].

  Lemma exchange_line_join t a :
    exchange_line t a = join (tick_cols t ++ account_cols a ++ ["";"";"";"";""]) ++ newline.
  Proof.
    unfold exchange_line, OhlcTickToCsv, AccountToCsv, EmptyOrderToCsv.
    cbn [app tick_cols account_cols join]. rewrite ?append_assoc_s. reflexivity.
  Qed.
  Lemma exchange_order_line_join t a o :
    exchange_order_line t a o = join (tick_cols t ++ account_cols a ++ order_cols o) ++ newline.
  Proof.
    unfold exchange_order_line, OhlcTickToCsv, AccountToCsv, OrderToCsv.
    cbn [app tick_cols account_cols order_cols join]. rewrite ?append_assoc_s. reflexivity.
  Qed.

  Lemma order_cols_spec o : fltb (fofZ 0) (fofZ 0) = false -> order_columns o (order_cols o).
  Proof.
    intros H0. unfold order_columns, order_cols. eexists _, _, _, _, _. split; [reflexivity|].
    destruct o as [ty sd am pr]; cbn.
    split; [destruct ty as [[]|]; reflexivity|].
    split; [destruct sd as [[]|]; reflexivity|].
    split; [destruct am; reflexivity|]. split; [destruct am; reflexivity|].
    unfold get_price; cbn. destruct pr as [p|].
    - split; intros ->; reflexivity.
    - rewrite H0. reflexivity.
  Qed.
End Lines.

Section LinesIEEE.
  Variables (lm : libm) (as_ : bool).
  Let I := ieee lm as_.

  Lemma order_cols_chars (o : @order I) : Forall (chars numeric) (@order_cols I o).
  Proof.
    unfold order_cols. repeat constructor.
    - destruct (get_type o); cbn; unfold numeric, comma, line_feed; cbn; repeat split; discriminate.
    - destruct (get_side o); cbn; unfold numeric, comma, line_feed; cbn; repeat split; discriminate.
    - destruct (is_base_amount o); [apply fmt3_chars|constructor].
    - destruct (is_quote_amount o); [apply fmt3_chars|constructor].
    - destruct (fltb _ _); [apply fmt3_chars|constructor].
  Qed.

  Lemma tick_cols_chars (t : @ohlc_tick I) : Forall (chars numeric) (@tick_cols I t).
  Proof. unfold tick_cols. repeat constructor; try apply fmt3_chars. apply fmt_d_chars. Qed.
  Lemma account_cols_chars (a : @account I) : Forall (chars numeric) (@account_cols I a).
  Proof. unfold account_cols. repeat constructor; apply fmt3_chars. Qed.
End LinesIEEE.

(** * Numbers *)

Lemma number_fmt_d z : number (fmt_d z) = Some z.
Proof.
  unfold number, fmt_d.
  destruct (Z.eq_dec z 0) as [->|Hz]; [reflexivity|].
  rewrite NilZero.isi.
  - cbn [option_map]. rewrite DecimalZ.of_to. reflexivity.
  - intros H. apply Hz. rewrite <- (DecimalZ.of_to z), H. reflexivity.
  - intros H. apply Hz. rewrite <- (DecimalZ.of_to z), H. reflexivity.
Qed.

Lemma text_one_free line l' : split line_feed (text [line]) = [line; l'] -> free line_feed line.
Proof.
  rewrite text_cons. cbn [text map String.concat]. intros H.
  assert (G : forall s r, split line_feed (s ++ String line_feed "") = r ->
              (List.length r = 2%nat -> free line_feed s)
              /\ (1 < List.length r)%nat).
  { clear. induction s as [|a s IH]; intros r Hr; cbn [append split] in Hr; try rewrite Ascii.eqb_refl in Hr.
    - subst r. cbn. split; [intros; exact I|lia].
    - specialize (IH _ eq_refl). destruct IH as [I1 I2]. destruct (Ascii.eqb_spec a line_feed) as [->|Hne].
      + subst r. cbn [List.length]. split; [intros E|lia].
        lia.
      + destruct (split line_feed (s ++ String line_feed "")) as [|x xs] eqn:E; subst r;
          cbn [List.length] in *; [lia|].
        split; [intros L; cbn; split; [exact Hne|apply I1; exact L]|lia]. }
  destruct (G line _ H) as [G1 _]. apply G1. reflexivity.
Qed.

Lemma two_digits m : (0 <= m < 60)%Z ->
  free ":" (fmt_02d m) /\ number (fmt_02d m) = Some m /\ String.length (fmt_02d m) = 2%nat.
Proof.
  intros H.
  assert (E : exists n, (n < 60)%nat /\ m = Z.of_nat n) by (exists (Z.to_nat m); lia).
  destruct E as (n & Hn & ->). clear H.
  do 60 (destruct n as [|n]; [cbn; repeat split; discriminate|]). lia.
Qed.
