(** C120: output files on a full device, and programs that are killed while they write. *)
From Coq Require Import String ZArith Bool Lia.
From Coq Require Import List.
From Verif.Model Require Import Outcome Machine Types Eval Proto Convert TimeText MachineIEEE Files Programs Device.
From Verif.Spec Require Import SeriesSpec ReaderSpec SideInputSpec ProtoSpec ProgramSpec DeviceSpec.
From Verif.Proofs Require Import Base ProtoProofs ReaderProofs SeriesProofs ConvertProofs ProgramProofs DeviceProofs.
From Verif.Properties Require Import ReaderProps ProtoProps ProgramProps TraderMainProps.
Import ListNotations.
Local Open Scope Z_scope.

Local Opaque block.

(** ** One file *)

(** On a file that accepts [space] bytes exactly the first [space] bytes of the file are
    written. The status is Ok iff the blocks of 8192 bytes that are full before the last byte fit;
    so Ok means that at most the last 8192 bytes are missing, and a file of at most 8192 bytes
    is "written" with status Ok on a full device. *)
Theorem C120_file T (space : nat) (ms : list (msg T)) :
  let file := WriteDelimitedMessages T ms in
  let size := Z.of_nat (length file) in
  exists ok, WriteDelimitedMessagesOn T space ms = (firstn space file, ok) /\
    (ok = true <-> 8192 * ((size - 1) / 8192) <= Z.of_nat space) /\
    (size <= Z.of_nat space -> ok = true) /\
    (ok = true -> size <= Z.of_nat space + 8192) /\
    (size <= 8192 -> ok = true).
Proof.
  cbv zeta. rewrite device_bytes, write_bytes_spec. set (n := length (WriteDelimitedMessages T ms)).
  pose proof block_val as B.
  assert (E : (0 < n)%nat -> Z.of_nat (flushed n) = 8192 * ((Z.of_nat n - 1) / 8192)).
  { intros P. unfold flushed. rewrite Nat2Z.inj_mul, Nat2Z.inj_div, Nat2Z.inj_sub by lia. rewrite B. reflexivity. }
  pose proof (flushed_le n) as L. pose proof (flushed_lt n) as U.
  exists (flushed n <=? space)%nat. split; [reflexivity|].
  rewrite Nat.leb_le.
  destruct (Nat.eq_dec n 0) as [Z0|NZ].
  - rewrite Z0 in *. change ((Z.of_nat 0 - 1) / 8192) with (-1). lia.
  - specialize (E ltac:(lia)). rewrite <- E. repeat split; intros; try lia.
    assert ((Z.of_nat n - 1) / 8192 = 0) by (apply Z.div_small; lia). lia.
Qed.

Local Opaque block.

Section Convert.
  Context {lm : libm} {as_ : bool}.
  Local Notation I := (ieee lm as_).
  Implicit Types (env : environment) (sc : @scanner I) (f : convert_flags).

  (** ** The converter *)

  (** When every file fits, nothing changes. *)
  Theorem C120_enough_space env sc f (space : nat -> nat) r :
    convert_main env sc f = Done r ->
    (forall k name b, nth_error (c_files r) k = Some (name, b) -> (length b <= space k)%nat) ->
    convert_main_on env sc space f = Done r.
  Proof.
    intros H Hs. unfold convert_main_on. rewrite H. cbn [bind].
    rewrite (store_fits space (c_files r) 0) by exact Hs. destruct r. reflexivity.
  Qed.

  (** Otherwise: the files that the program writes when there is space, in that order, each
      lacking at most its last 8192 bytes - and either these are all files, and the exit code is
      the one of the undisturbed run, or they are followed by one file that is cut off, and the
      program fails. In particular what is left is never garbage. *)
  Theorem C120_convert env sc f (space : nat -> nat) r :
    convert_main_on env sc space f = Done r ->
    exists r0, convert_main env sc f = Done r0 /\ c_gaps r = c_gaps r0 /\
      ((c_exit r = c_exit r0 /\ nearly_complete (Z.to_nat 8192) (c_files r0) (c_files r)) \/
       (c_exit r = EXIT_FAILURE /\
        exists done name b n rest done', c_files r0 = done ++ (name, b) :: rest /\ (n < length b)%nat /\
          nearly_complete (Z.to_nat 8192) done done' /\ c_files r = done' ++ [(name, firstn n b)])).
  Proof.
    intros H. unfold convert_main_on in H. apply bind_done in H as (r0 & E & H).
    destruct (store space 0 (c_files r0)) as (files, ok) eqn:S. injection H as <-.
    exists r0. split; [exact E|]. split; [reflexivity|]. cbn [c_exit c_files]. destruct ok.
    - left. split; [reflexivity|]. exact (store_ok _ _ _ _ S).
    - right. split; [reflexivity|].
      destruct (store_failed _ _ _ _ S) as (done & name & b & n & rest & E1 & Hn & done' & E2 & N).
      exists done, name, b, n, rest, done'. auto.
  Qed.

  (** ** What the trader makes of it *)

  (** A file that begins like a delimited tick file (because its writer ran out of space or was
      killed) is refused, or is, byte for byte, the file of the first ticks. *)
  Theorem C120_trader env (f : trader_flags) (ms : list tick_msg) (k : nat) :
    Forall tick_message ms ->
    readable env (tf_input_ohlc f) = Some (firstn k (WriteDelimitedMessages OhlcTickType ms)) ->
    (forall sort fuel sched, @trader_main lm as_ env sort fuel sched f = Done (TraderResult EXIT_FAILURE None [])) \/
    exists n, firstn k (WriteDelimitedMessages OhlcTickType ms) = WriteDelimitedMessages OhlcTickType (firstn n ms).
  Proof.
    intros Hm Hf.
    destruct (C61_truncated OhlcTickType tick_message ms k history_tick Hm) as (n & st & _ & R & [->|E] & Hst).
    - right. exists n. apply Hst. reflexivity.
    - left. intros sort fuel sched. apply C71_trader_ohlc. unfold broken. rewrite Hf, R. subst st. discriminate.
  Qed.

  (** The tick file of the converter is the file of a valid history. *)
  Lemma tick_file_written env sc f r start end_ b :
    real_files env -> int64_scanner sc -> consuming sc ->
    convert_times f start end_ -> 0 < cf_sampling_rate_sec f <= start ->
    cf_output_ohlc f <> cf_output_price f -> cf_output_ohlc f <> cf_output_side f ->
    convert_main env sc f = Done r -> In (cf_output_ohlc f, b) (c_files r) ->
    exists ms : list tick_msg, Forall tick_message ms /\ ms <> [] /\
      valid_history timestamp_sec ohlc_ok (map (@tick_of_msg lm as_) ms) /\
      b = WriteDelimitedMessages OhlcTickType ms.
  Proof.
    intros Hf Hs Hc [Ht1 Ht2] [Hr Hrs] D1 D2 H Hin. rewrite convert_main_cases, Ht1, Ht2 in H. cbv zeta in H.
    assert (Hp : 0 < start) by lia.
    destruct (check_input_flags (cf_input f)); [|injection H as <-; destruct Hin].
    destruct (is_price_input (cf_input f)); [|destruct (is_ohlc_input (cf_input f))].
    - apply bind_done in H as ([price|] & HR & H); [|injection H as <-; destruct Hin].
      apply bind_done in H as (ohlc & Ho & H). injection H as <-.
      pose proof (price_input_ok env sc _ _ _ _ Hf Hs HR) as Hpi.
      pose proof (price_input_length env sc _ _ _ _ Hf HR) as Hlen.
      apply finish_written in Hin as [Hin|[Hin|[]]].
      + apply in_written in Hin as (_ & E & _). contradiction.
      + pose proof (in_written _ _ _ _ _ Hin) as (N & En & N2 & ->).
        unfold to_ohlc in Ho. destruct price as [|m price]; [injection Ho as <-; contradiction|].
        destruct (nonempty (cf_output_ohlc f)) eqn:Ene; [|injection Ho as <-; contradiction].
        apply omap_done in Ho as (ticks & Hcv & <-).
        set (h := map price_of_msg (m :: price)) in *. pose proof Hpi as (V & Hi & Hm).
        assert (Hh : forall x, In x h -> in_period start end_ (pr_timestamp_sec x) /\ is_int64 (pr_timestamp_sec x)).
        { intros x Hx. apply in_map_iff in Hx as (m' & <- & Hm'). split; [apply interval_period; [exact Hp|exact (Hi m' Hm')]|].
          rewrite Forall_forall in Hm. specialize (Hm m' Hm'). destruct m' as [[t|] q v]; destruct Hm as [Hm _]; cbn in *; [exact Hm|].
          unfold is_int64. lia. }
        destruct (converted (cf_sampling_rate_sec f) (d2f (machine := I) (cf_max_price_deviation_per_min f)) (cf_last_n_outliers f) h)
          as (ohlc & Hcv' & Hne & HV & HS & HB); try assumption; try (unfold h; discriminate).
        { intros x Hx. destruct (Hh x Hx) as [[? _] _]. lia. }
        { intros x Hx. apply Hh, Hx. }
        { unfold h. rewrite map_length. exact Hlen. }
        rewrite Hcv in Hcv'. injection Hcv' as ->. exists (map msg_of_tick ohlc). split; [|split; [|split; [|reflexivity]]].
        * apply Forall_forall. intros t Ht. apply in_map_iff in Ht as (x & <- & Hx). apply tick_msg_ok. apply HB, Hx.
        * destruct ohlc; [contradiction|discriminate].
        * rewrite ticks_of_msgs. exact HV.
    - apply bind_done in H as ([ohlc|] & HR & H); [|injection H as <-; destruct Hin].
      injection H as <-. apply finish_written in Hin as [[]|[Hin|[]]].
      destruct (ohlc_input_ok env sc _ _ _ _ Hf Hs HR) as (V & _ & Hm).
      apply in_written in Hin as (N & _ & _ & ->). exists ohlc. auto.
    - destruct (ReadSideHistoryFromCsvFile env sc _ start end_) as [side|] eqn:HR; [|injection H as <-; destruct Hin].
      injection H as <-. apply finish_written in Hin as [[]|[[]|Hin]].
      apply in_written in Hin as (_ & E & _). contradiction.
  Qed.

  (** The converter was killed at any point of its writing. Whatever it left under the name of the
      tick file: the trader refuses it, or reads from it the first ticks of the history that
      the converter was writing, and nothing else. *)
  Theorem C120_killed env sc cf r start end_ files (f : trader_flags) b :
    real_files env -> int64_scanner sc -> consuming sc ->
    convert_times cf start end_ -> 0 < cf_sampling_rate_sec cf <= start ->
    cf_output_ohlc cf <> cf_output_price cf -> cf_output_ohlc cf <> cf_output_side cf ->
    convert_main env sc cf = Done r ->
    interrupted (c_files r) files ->
    tf_input_ohlc f = cf_output_ohlc cf -> content files (cf_output_ohlc cf) = Some b ->
    exists (whole : bytes) (h : list (@ohlc_tick I)),
      In (cf_output_ohlc cf, whole) (c_files r) /\ holds_ticks whole h /\ valid_history timestamp_sec ohlc_ok h /\
      ((forall sort fuel sched,
          @trader_main lm as_ (after env files) sort fuel sched f = Done (TraderResult EXIT_FAILURE None [])) \/
       exists n, holds_ticks b (firstn n h)).
  Proof.
    intros Hf Hs Hc Ht Hr D1 D2 H Hi Ef Hb.
    assert (W : exists whole k, In (cf_output_ohlc cf, whole) (c_files r) /\ b = firstn k whole).
    { assert (Hin : In (cf_output_ohlc cf, b) files).
      { clear - Hb. induction files as [|(n, b') files IH]; [discriminate|]. cbn [content] in Hb.
        destruct (content files (cf_output_ohlc cf)) as [b''|] eqn:E.
        - injection Hb as ->. right. apply IH. reflexivity.
        - destruct (String.eqb_spec n (cf_output_ohlc cf)) as [->|]; [|discriminate]. injection Hb as ->. left. reflexivity. }
      destruct Hi as [done rest E|done name b' k rest E].
      - exists b, (length b). rewrite firstn_all, E. split; [apply in_or_app; left; exact Hin|reflexivity].
      - rewrite E. apply in_app_or in Hin as [Hin|[Hin|[]]].
        + exists b, (length b). rewrite firstn_all. split; [apply in_or_app; left; exact Hin|reflexivity].
        + injection Hin as -> <-. exists b', k. split; [apply in_or_app; right; left; reflexivity|reflexivity]. }
    destruct W as (whole & k & Hw & ->).
    destruct (tick_file_written env sc cf r start end_ whole Hf Hs Hc Ht Hr D1 D2 H Hw) as (ms & Hm & _ & V & ->).
    exists (WriteDelimitedMessages OhlcTickType ms), (map (@tick_of_msg lm as_) ms).
    split; [exact Hw|]. split.
    { exists ms. split; [apply (C60_roundtrip OhlcTickType tick_message ms history_tick Hm)|reflexivity]. }
    split; [exact V|].
    destruct (C120_trader (after env files) f ms k Hm) as [R|(n & E)].
    - unfold after. cbn [readable]. rewrite Ef, Hb. reflexivity.
    - left. exact R.
    - right. exists n. rewrite E. exists (firstn n ms). split; [|apply firstn_map].
      apply (C60_roundtrip OhlcTickType tick_message (firstn n ms) history_tick). apply Forall_firstn. exact Hm.
  Qed.

  (** The trader's log files: the run does not notice a full device at all. *)
  Theorem C120_logs env sort fuel sched space (f : trader_flags) r :
    @trader_main_on lm as_ env sort fuel sched space f = Done r ->
    exists r0, @trader_main lm as_ env sort fuel sched f = Done r0 /\
      t_exit r = t_exit r0 /\ t_printed r = t_printed r0 /\
      Forall2 (fun l0 l => fst l = fst l0 /\ exists n, snd l = String.substring 0 n (snd l0)) (t_logs r0) (t_logs r).
  Proof.
    unfold trader_main_on. intros H. apply bind_done in H as (r0 & E & H). injection H as <-.
    exists r0. split; [exact E|]. split; [reflexivity|]. split; [reflexivity|]. cbn [t_logs]. clear E.
    enough (G : forall k, Forall2 (fun l0 l => fst l = fst l0 /\ exists n, snd l = String.substring 0 n (snd l0)) (t_logs r0) (store_logs space k (t_logs r0))) by apply G.
    induction (t_logs r0) as [|(name, text) logs IH]; intros k; cbn [store_logs]; [constructor|].
    constructor; [|apply IH]. cbn [fst snd]. split; [reflexivity|]. exists (space k). reflexivity.
  Qed.
End Convert.

(** ** The hypotheses are met. *)
Definition ex_tight : convert_flags :=
  ex_flags (InputFlags "in.csv" "" "" "" "") "1970-01-01 00:00:02" "1970-01-01 00:00:09".

(** With 20 bytes on the device the example of C69 "succeeds", and leaves one record in the price
    file and half a tick in the tick file. *)
Lemma C120_ex (lm : libm) (as_ : bool) :
  exists r0 r, convert_main ex_env (@digits (ieee lm as_)) ex_tight = Done r0 /\
    convert_main_on ex_env (@digits (ieee lm as_)) (fun _ => 20%nat) ex_tight = Done r /\
    c_exit r = EXIT_SUCCESS /\ map (fun w => length (snd w)) (c_files r0) = [26; 84]%nat /\
    map (fun w => length (snd w)) (c_files r) = [20; 20]%nat /\
    (forall sort fuel sched f, tf_input_ohlc f = "o.bin"%string ->
       @trader_main lm as_ (after ex_env (c_files r)) sort fuel sched f = Done (TraderResult EXIT_FAILURE None [])).
Proof.
  eexists. eexists. split; [clear; destruct as_; vm_compute; reflexivity|].
  split; [clear; destruct as_; vm_compute; reflexivity|].
  split; [reflexivity|]. split; [reflexivity|]. split; [reflexivity|].
  intros sort fuel sched f Ef. apply C71_trader_ohlc. unfold broken. rewrite Ef.
  cbn [c_files after readable content String.eqb Ascii.eqb Bool.eqb].
  intros ms H. vm_compute in H. discriminate.
Qed.

(** Killed after 28 bytes of the tick file: it holds exactly the first of three ticks; killed one
    byte later, it is refused. *)
Lemma C120_killed_ex (lm : libm) (as_ : bool) :
  exists r price ticks (h : list (@ohlc_tick (ieee lm as_))),
    convert_main ex_env (@digits (ieee lm as_)) ex_tight = Done r /\
    c_files r = [("p.bin", price); ("o.bin", ticks)]%string /\ holds_ticks ticks h /\ length h = 3%nat /\
    interrupted (c_files r) [("p.bin", price); ("o.bin", firstn 28 ticks)]%string /\
    holds_ticks (firstn 28 ticks) (firstn 1 h) /\
    broken (after ex_env [("p.bin", price); ("o.bin", firstn 29 ticks)]%string) OhlcTickType "o.bin".
Proof.
  do 4 eexists. split; [clear; destruct as_; vm_compute; reflexivity|]. split; [reflexivity|].
  split; [eexists; split; [vm_compute; reflexivity|reflexivity]|]. split; [reflexivity|].
  split; [cbn [c_files]; apply (within _ [_] _ _ 28 []); reflexivity|].
  split; [eexists; split; [vm_compute; reflexivity|reflexivity]|].
  unfold broken. cbn [after readable content String.eqb Ascii.eqb Bool.eqb]. intros ms H. vm_compute in H. discriminate.
Qed.
