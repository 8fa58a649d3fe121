(** C88: the numbers printed in the log files are the values, to the nearest thousandth. *)
From Coq Require Import ZArith Reals Bool String Ascii Lia Lra.
From Coq Require Import List.
From Flocq Require Import Core BinarySingleNaN.
From Verif.Model Require Import Outcome Machine Types Account SideInput Eval Traders CsvLogger MachineIEEE.
From Verif.Spec Require Import SideInputSpec RunSpec SeriesSpec LogSpec DecimalSpec.
From Verif.Proofs Require Import Base LogProofs DecimalProofs.
From Verif.Properties Require Import RunProps LogProps.
Import ListNotations.
Local Open Scope string_scope.

Section IEEE.
  Variables (lm : libm) (as_ : bool).
  Let I := ieee lm as_.

  (** A finite number is printed as the nearest thousandth ... *)
  Theorem C88_printed (x : @flt I) : is_finite (x : f32) = true -> shows (@ffmt3 I x) x.
  Proof.
    intros H. exists (printed x). split; [apply printed_decimal, H|].
    split; [apply printed_near, H|apply printed_thousandth].
  Qed.

  (** ... exactly when it is a whole number of thousandths ... *)
  Theorem C88_exact (x : @flt I) (k : Z) : is_finite (x : f32) = true -> (B2R (x : f32) = IZR k / 1000)%R ->
    decimal3 (@ffmt3 I x) = Some (B2R (x : f32)).
  Proof.
    intros H E. rewrite <- (printed_exact x k H E). apply printed_decimal, H.
  Qed.

  (** ... the larger number never as the smaller text ... *)
  Theorem C88_order (x y : @flt I) : is_finite (x : f32) = true -> is_finite (y : f32) = true ->
    @fleb I x y = true ->
    exists u v, decimal3 (@ffmt3 I x) = Some u /\ decimal3 (@ffmt3 I y) = Some v /\ (u <= v)%R.
  Proof.
    intros Hx Hy L. exists (printed x), (printed y).
    split; [apply printed_decimal, Hx|]. split; [apply printed_decimal, Hy|].
    apply printed_mono; [exact Hx|exact Hy|].
    change (Bleb (x : f32) y = true) in L. rewrite (Bleb_correct 24 128 x y Hx Hy) in L.
    revert L. case Rle_bool_spec; [auto|discriminate].
  Qed.

  (** ... and an infinity or NaN is not printed as a number. *)
  Theorem C88_not_finite (x : @flt I) : is_finite (x : f32) = false -> decimal3 (@ffmt3 I x) = None.
  Proof.
    change (@ffmt3 I x) with (f32_fmt3 x). destruct (x : f32) as [s|[]| |s m e He]; intros H; try discriminate H; reflexivity.
  Qed.

  (** The exchange log of a run, read back: in every line the columns show the tick's
      timestamp (exactly) and prices and the account's balances and fees, and for an executed
      order its amount and price. *)
  Definition column (s : string) (x : @flt I) : Prop := is_finite (x : f32) = true -> shows s x.
  Definition read_back {S} (x : @log_line I S) (line : string) : Prop :=
    let shown t a cols :=
      number (nth 0 cols "") = Some (timestamp_sec t)
      /\ Forall2 column (firstn 8 (skipn 1 cols))
           [open t; high t; low t; close t; volume t; base_balance a; quote_balance a; total_fee a] in
    match x with
    | TickLine t a => shown t a (split comma line) /\ skipn 9 (split comma line) = ["";"";"";"";""]
    | OrderLine t a o =>
      shown t a (split comma line)
      /\ exists ba qa pr, skipn 11 (split comma line) = [ba; qa; pr]
         /\ match o_amount o with
            | BaseAmount q => column ba q /\ qa = ""
            | QuoteAmount q => column qa q /\ ba = ""
            | NoAmount => ba = "" /\ qa = ""
            end
         /\ match o_price o with
            | Some p => if @fltb I (fofZ 0) p then column pr p else pr = ""
            | None => pr = ""
            end
    | TraderLine _ => False
    end.

  Lemma line_read_back S (x : @log_line I S) line : line_columns x line -> read_back x line.
  Proof.
    destruct x as [t a|t a o|st]; cbn [line_columns read_back]; [| |tauto].
    - intros (tc & ac & oc & E & (ts & Hts & ->) & -> & ->). rewrite E. cbn [app nth skipn firstn].
      split; [|reflexivity]. split; [exact Hts|].
      repeat constructor; intros F; apply C88_printed, F.
    - intros (tc & ac & oc & E & (ts & Hts & ->) & -> & (ty & sd & ba & qa & pr & -> & _ & _ & Hb & Hq & Hp)).
      rewrite E. cbn [app nth skipn firstn]. split; [split; [exact Hts|]|].
      + repeat constructor; intros F; apply C88_printed, F.
      + exists ba, qa, pr. split; [reflexivity|]. subst ba qa. split.
        * destruct (o_amount o); (split; [|reflexivity]); try reflexivity; intros F; apply C88_printed, F.
        * destruct (o_price o) as [p|]; [|exact Hp]. destruct Hp as [H1 H2].
          destruct (@fltb I (fofZ 0) p); [rewrite H1 by reflexivity; intros F; apply C88_printed, F|apply H2; reflexivity].
  Qed.

  Lemma lines_read_back S (xs : list (@log_line I S)) lines :
    Forall2 line_columns xs lines -> Forall2 read_back xs lines.
  Proof. intros F. induction F; constructor; [apply line_read_back|]; assumption. Qed.

  Theorem C88_log cfg h s fast (te : @trader_emitter I) ticks e0 t0 res (l' : csv_streams) :
    side_matches h s -> (h = None \/ time_ordered ticks) -> ticks <> [] ->
    run cfg s fast te (@csv_logger I) ticks (Some e0, t0) = Done (res, l') ->
    exists rows lines, story cfg h te ticks rows
      /\ fst l' = Some (e0 ++ text lines)
      /\ Forall2 read_back (filter (is_exchange_line lm as_) (story_log rows)) lines.
  Proof.
    intros Hs Ho Hne H.
    destruct (C65_log_files lm as_ cfg h s fast te ticks (Some e0) t0 res l' Hs Ho Hne H)
      as (rows & el & HS & F & _ & _ & E & _).
    exists rows, el. split; [exact HS|]. split; [exact E|].
    apply lines_read_back, F.
  Qed.
End IEEE.

(** Concrete numbers. *)
Lemma C88_ex :
  f32_fmt3 (f32_of_Z 1234567) = "1234567.000"
  /\ f32_fmt3 (@flit (ieee (Libm (fun x => x) (fun x => x) (fun x _ => x)) true) (-3) 2000) = "-0.002"
  /\ (exists v, decimal3 "-12.045" = Some v /\ v = (- (12 + 45 / 1000)))%R
  /\ decimal3 "12.5" = None /\ decimal3 "inf" = None /\ decimal3 "1.2.345" = None.
Proof.
  split; [vm_compute; reflexivity|]. split; [vm_compute; reflexivity|]. split; [|repeat split].
  eexists. split; [reflexivity|]. reflexivity.
Qed.
