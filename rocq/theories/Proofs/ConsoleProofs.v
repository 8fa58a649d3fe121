(** The programs with their console lines do what the programs without them do. *)
From Coq Require Import ZArith Bool String Ascii Lia.
From Coq Require Import List.
From Flocq Require Import Core BinarySingleNaN.
From Verif.Model Require Import Outcome Machine Types Account History SideInput TimeUtil Eval Traders CsvLogger Proto Convert TimeText MachineIEEE Files Programs Console.
From Verif.Spec Require Import LogSpec SeriesSpec ReaderSpec ProgramSpec ConsoleSpec ConsoleMainSpec.
From Verif.Proofs Require Import Base LogProofs ReaderProofs ProtoProofs ProgramProofs ReportProofs.
Import ListNotations.
Local Open Scope string_scope.
Local Open Scope list_scope.
Local Open Scope Z_scope.
Local Infix "+++" := String.append (right associativity, at level 60).

Lemma same_bind {A B C D} (R : A -> B -> Prop) (Q : C -> D -> Prop) x y f g :
  same_end R x y -> (forall a b, R a b -> x = Done a -> y = Done b -> same_end Q (f a) (g b)) -> same_end Q (bind x f) (bind y g).
Proof. intros H K. destruct H; cbn [bind]; [apply K; (assumption || reflexivity)|constructor..]. Qed.
Lemma same_weaken {A B} (R Q : A -> B -> Prop) x y :
  same_end R x y -> (forall a b, R a b -> Q a b) -> same_end Q x y.
Proof. intros H K. destruct H; constructor. auto. Qed.
Lemma same_omap {A B C} (f : A -> B) (g : C -> B) (x : outcome A) (y : outcome C) :
  omap f x = omap g y -> same_end (fun a c => f a = g c) x y.
Proof.
  destruct x, y; cbn; intros H; try discriminate H; constructor. injection H as H. exact H.
Qed.

Lemma untroubled_nil : untroubled []. Proof. intros l []. Qed.
Lemma untroubled_app a b : untroubled a -> untroubled b -> untroubled (a ++ b).
Proof. intros Ha Hb l Hl. apply in_app_or in Hl as [Hl|Hl]; auto. Qed.
Lemma untroubled_info t l : untroubled l -> untroubled (Info t :: l).
Proof. intros H x [<-|Hx]; [eexists; reflexivity|auto]. Qed.
Lemma untroubled_map {A} (f : A -> string) l : untroubled (map (fun x => Info (f x)) l).
Proof. intros x Hx. apply in_map_iff in Hx as (a & <- & _). eexists. reflexivity. Qed.
Lemma untroubled_infos l : untroubled (map Info l).
Proof. intros x Hx. apply in_map_iff in Hx as (a & <- & _). eexists. reflexivity. Qed.
#[global] Hint Resolve untroubled_nil untroubled_app untroubled_info untroubled_map untroubled_infos : untroubled.

Ltac quiet := cbn [fst snd app]; unfold loaded_line, selected_period; auto 30 with untroubled.

(** Two readers in lock step. *)
Lemma read_sim {T : message_type} {S1 S2} (r1 : S1 -> msg T -> S1 * reader_status) (r2 : S2 -> msg T -> S2 * reader_status)
      (R : S1 -> S2 -> Prop) :
  (forall s1 s2 m, R s1 s2 -> R (fst (r1 s1 m)) (fst (r2 s2 m)) /\ snd (r1 s1 m) = snd (r2 s2 m)) ->
  forall fuel s1 s2 b, R s1 s2 ->
    match read_delimited_loop T r1 fuel s1 b, read_delimited_loop T r2 fuel s2 b with
    | Some (a, st), Some (a', st') => R a a' /\ st = st'
    | None, None => True
    | _, _ => False
    end.
Proof.
  intros H. induction fuel as [|fuel IH]; intros s1 s2 b HR; [exact I|]. cbn [read_delimited_loop].
  destruct (parse_delimited T b) as [m rest| |]; [|auto|auto].
  destruct (H s1 s2 m HR) as [H1 H2]. destruct (r1 s1 m) as [s1' st1], (r2 s2 m) as [s2' st2].
  cbn [fst snd] in H1, H2. subst st2. destruct st1; [apply IH; exact H1|auto|auto].
Qed.

Section Convert.
  Context {lm : libm} {as_ : bool} (env : environment) (sc : @scanner (ieee lm as_))
          (seconds : nat -> string) (dbg : forall T : message_type, msg T -> string).
  Local Notation I := (ieee lm as_).

  Lemma csv_forget {R X} what records (report : list string -> Z -> Z -> load R) (to_msg : R -> X) k file start end_ :
    let r := ReadCsvFile env seconds what records report to_msg k file start end_ in
    untroubled (fst r) /\
    match read_lines env file with
    | None => snd r = Refused ("Cannot open the file: " +++ file)
    | Some lines => match report lines start end_ with
                    | Refused why => snd r = Refused why
                    | Loaded h => snd r = Loaded (map to_msg h)
                    end
    end.
  Proof.
    cbv zeta. unfold ReadCsvFile. destruct (read_lines env file) as [lines|]; [|split; [quiet|reflexivity]].
    destruct (report lines start end_); (split; [quiet|reflexivity]).
  Qed.

  Lemma proto_same (T : message_type) (ts : msg T -> Z) (validate : msg T -> option string) (valid : msg T -> bool) k file start end_ :
    (forall m, valid m = match validate m with None => true | Some _ => false end) ->
    same_end (fun h r => untroubled (fst r) /\ forget (snd r) = h)
      (ReadHistoryFromDelimitedProtoFile env T ts valid file start end_)
      (ReadProtoFile env seconds dbg T ts validate k file start end_).
  Proof.
    intros Hv. unfold ReadHistoryFromDelimitedProtoFile, ReadProtoFile.
    destruct (readable env file) as [b|]; [|constructor; split; [quiet|reflexivity]].
    pose proof (read_sim (T := T) (history_reader ts valid start end_) (reporting_reader ts validate (dbg T) start end_)
      (fun s1 s2 => fst s1 = timestamp_sec_prev s2 /\ snd s1 = read_so_far s2)) as K.
    unfold ReadDelimited.
    match goal with |- same_end _ (match ?x with _ => _ end) (match ?y with _ => _ end) =>
      assert (K' : match x, y with
        | Some (a, st), Some (a', st') => (fst a = timestamp_sec_prev a' /\ snd a = read_so_far a') /\ st = st'
        | None, None => True | _, _ => False end) end.
    { apply K; [|split; reflexivity]. clear K.
      intros [prev h] s2 m [E1 E2]. cbn [fst snd] in E1, E2. subst prev h.
      unfold history_reader, reporting_reader, row_action_of. cbn [fst snd]. rewrite Hv.
      destruct ((start >? 0) && (ts m <? start)); [cbn; auto|].
      destruct ((end_ >? 0) && (ts m >=? end_)); [cbn; auto|].
      destruct ((ts m <=? 0) || (ts m <? timestamp_sec_prev s2)); [cbn; auto|].
      destruct (validate m); cbn; auto. }
    clear K. destruct (read_delimited_loop T (history_reader _ _ _ _) _ _ _) as [[[p h] st]|];
      destruct (read_delimited_loop T (reporting_reader _ _ _ _ _) _ _ _) as [[s st']|]; try contradiction; [|constructor].
    destruct K' as [[E1 E2] <-]. cbn [fst snd] in E1, E2. subst h.
    destruct st; constructor; (split; [quiet|reflexivity]).
  Qed.

  Lemma inputs_cases f :
    let i := cf_input f in
    match input_flags_error i with
    | Some why => check_input_flags i = false /\ convert_reason env sc seconds dbg f why
    | None => check_input_flags i = true /\
      exists file, inputs i = [file] /\
        ((nonempty (price_csv i) = true /\ nonempty (price_proto i) = false /\ nonempty (ohlc_csv i) = false
          /\ nonempty (ohlc_proto i) = false /\ nonempty (side_csv i) = false /\ file = price_csv i)
         \/ (nonempty (price_csv i) = false /\ nonempty (price_proto i) = true /\ nonempty (ohlc_csv i) = false
          /\ nonempty (ohlc_proto i) = false /\ nonempty (side_csv i) = false /\ file = price_proto i)
         \/ (nonempty (price_csv i) = false /\ nonempty (price_proto i) = false /\ nonempty (ohlc_csv i) = true
          /\ nonempty (ohlc_proto i) = false /\ nonempty (side_csv i) = false /\ file = ohlc_csv i)
         \/ (nonempty (price_csv i) = false /\ nonempty (price_proto i) = false /\ nonempty (ohlc_csv i) = false
          /\ nonempty (ohlc_proto i) = true /\ nonempty (side_csv i) = false /\ file = ohlc_proto i)
         \/ (nonempty (price_csv i) = false /\ nonempty (price_proto i) = false /\ nonempty (ohlc_csv i) = false
          /\ nonempty (ohlc_proto i) = false /\ nonempty (side_csv i) = true /\ file = side_csv i))
    end.
  Proof.
    cbv zeta. unfold input_flags_error, check_input_flags.
    pose proof (two_price_inputs env sc seconds dbg f) as R1. pose proof (two_ohlc_inputs env sc seconds dbg f) as R2.
    pose proof (many_inputs env sc seconds dbg f) as R3. pose proof (no_input env sc seconds dbg f) as R4.
    unfold inputs in *. cbn [filter] in *. change given with nonempty in *.
    destruct (nonempty (price_csv (cf_input f))), (nonempty (price_proto (cf_input f))), (nonempty (ohlc_csv (cf_input f))),
      (nonempty (ohlc_proto (cf_input f))), (nonempty (side_csv (cf_input f))); cbn [andb orb Nat.add Nat.ltb Nat.leb Nat.eqb] in *;
      (split; [reflexivity|]);
      try (apply R1; reflexivity); try (apply R2; reflexivity); try (apply R4; reflexivity);
      try (apply R3; cbn [List.length]; lia); eexists; (split; [reflexivity|]); tauto.
  Qed.

  Definition right_end (f : convert_flags) (r : convert_result) (res : exit_code * list (string * bytes) * list console_line) : Prop :=
    let '(x, files, log) := res in
    x = c_exit r /\ files = c_files r /\ prints_gaps log (cf_top_n_gaps f) (c_gaps r)
    /\ match x with
       | EXIT_SUCCESS => untroubled log
       | EXIT_FAILURE => exists why, ends_with_error log why /\ convert_reason env sc seconds dbg f why
       end
    /\ forall file b, In (file, b) files -> announced log file b.

  Lemma announced_app l l1 l2 file b : announced l file b -> announced (l1 ++ l ++ l2) file b.
  Proof.
    intros (T & h & n & A & B & C). exists T, h, n. split; [exact A|]. split; [exact B|]. apply in_or_app. right. apply in_or_app. left. exact C.
  Qed.
  Lemma announced_left l l2 file b : announced l file b -> announced (l ++ l2) file b.
  Proof. intros H. apply (announced_app _ []). exact H. Qed.
  Lemma gaps_app log l n gaps : prints_gaps log n gaps -> prints_gaps (log ++ l) n gaps.
  Proof.
    intros [H|(b & t & a & N & ->)]; [left; exact H|]. right. exists b, t, (a ++ l). split; [exact N|].
    rewrite <- app_assoc. cbn [app]. rewrite <- app_assoc. reflexivity.
  Qed.

  Lemma write_step (T : message_type) k (h : list (msg T)) file :
    (exists l fs, WriteHistory env seconds T k h file = (l, Some fs) /\ untroubled l
       /\ (forall files, write_history env T h file files = Some (files ++ fs))
       /\ (forall name b, In (name, b) fs -> announced l name b))
    \/ (exists l, WriteHistory env seconds T k h file = (l ++ [Error ("Cannot open the input file: " +++ file)], None) /\ untroubled l
       /\ (forall files, write_history env T h file files = None) /\ given file = true /\ writable env file = false).
  Proof.
    unfold WriteHistory, write_history. destruct h as [|m h].
    { left. exists [], []. repeat split; [quiet|intros; rewrite app_nil_r; reflexivity|intros name b []]. }
    change given with nonempty. destruct (nonempty file) eqn:N.
    - destruct (writable env file) eqn:W.
      + left. do 2 eexists. split; [reflexivity|]. split; [quiet|]. split; [reflexivity|].
        intros name b [E|[]]. injection E as <- <-. exists T, (m :: h), (count (m :: h)).
        split; [reflexivity|]. split; [apply number_fmt_d|]. left. reflexivity.
      + right. eexists. split; [reflexivity|]. split; [quiet|]. auto.
    - left. exists [], []. repeat split; [quiet|intros; rewrite app_nil_r; reflexivity|intros name b []].
  Qed.

  Lemma fails f log why files gaps :
    untroubled log -> prints_gaps log (cf_top_n_gaps f) gaps -> convert_reason env sc seconds dbg f why ->
    (forall file b, In (file, b) files -> announced log file b) ->
    same_end (right_end f) (Done (ConvertResult EXIT_FAILURE files gaps)) (Done (EXIT_FAILURE, files, log ++ [Error why])).
  Proof.
    intros H G R A. constructor. cbn [c_exit c_files c_gaps]. split; [reflexivity|]. split; [reflexivity|].
    split; [apply gaps_app; exact G|]. split; [|intros; apply announced_left; auto].
    exists why. split; [|exact R]. exists log. auto.
  Qed.

  Lemma writes_same f price ohlc side gaps log :
    untroubled log -> prints_gaps log (cf_top_n_gaps f) gaps ->
    same_end (right_end f)
      match write_history env PriceRecordType price (cf_output_price f) [] with
      | None => Done (ConvertResult EXIT_FAILURE [] gaps)
      | Some files =>
      match write_history env OhlcTickType ohlc (cf_output_ohlc f) files with
      | None => Done (ConvertResult EXIT_FAILURE files gaps)
      | Some files =>
      match write_history env SideInputRecordType side (cf_output_side f) files with
      | None => Done (ConvertResult EXIT_FAILURE files gaps)
      | Some files => Done (ConvertResult EXIT_SUCCESS files gaps)
      end end end
      (let (l1, w1) := WriteHistory env seconds PriceRecordType 1 price (cf_output_price f) in
       let log := log ++ l1 in
       match w1 with
       | None => Done (EXIT_FAILURE, [], log)
       | Some f1 =>
       let (l2, w2) := WriteHistory env seconds OhlcTickType 2 ohlc (cf_output_ohlc f) in
       let log := log ++ l2 in
       match w2 with
       | None => Done (EXIT_FAILURE, f1, log)
       | Some f2 =>
       let (l3, w3) := WriteHistory env seconds SideInputRecordType 3 side (cf_output_side f) in
       let log := log ++ l3 in
       match w3 with
       | None => Done (EXIT_FAILURE, f1 ++ f2, log)
       | Some f3 => Done (EXIT_SUCCESS, f1 ++ f2 ++ f3, log)
       end end end).
  Proof.
    intros Hl Hg.
    destruct (write_step PriceRecordType 1 price (cf_output_price f)) as [(l1 & f1 & -> & U1 & E1 & A1)|(l1 & -> & U1 & E1 & G1 & W1)];
      rewrite E1; cbv zeta.
    2:{ rewrite app_assoc. apply fails; [quiet|apply gaps_app; exact Hg| |intros file b []].
        apply closed_output; [left; reflexivity|exact G1|exact W1]. }
    destruct (write_step OhlcTickType 2 ohlc (cf_output_ohlc f)) as [(l2 & f2 & -> & U2 & E2 & A2)|(l2 & -> & U2 & E2 & G2 & W2)];
      rewrite E2.
    2:{ rewrite app_assoc. apply fails; [quiet|apply gaps_app, gaps_app; exact Hg| |].
        - apply closed_output; [right; left; reflexivity|exact G2|exact W2].
        - intros file b Hin. apply announced_left. rewrite <- (app_nil_r l1). apply announced_app. apply A1. exact Hin. }
    destruct (write_step SideInputRecordType 3 side (cf_output_side f)) as [(l3 & f3 & -> & U3 & E3 & A3)|(l3 & -> & U3 & E3 & G3 & W3)];
      rewrite E3.
    2:{ rewrite app_assoc. cbn [app]. apply fails; [quiet|apply gaps_app, gaps_app, gaps_app; exact Hg| |].
        - apply closed_output; [right; right; left; reflexivity|exact G3|exact W3].
        - intros file b Hin. apply announced_left. apply in_app_or in Hin as [Hin|Hin].
          + rewrite <- app_assoc. apply announced_app. apply A1. exact Hin.
          + rewrite <- (app_nil_r l2). apply announced_app. apply A2. exact Hin. }
    constructor. cbn [c_exit c_files c_gaps]. split; [reflexivity|]. split; [rewrite <- app_assoc; reflexivity|].
    split; [apply gaps_app, gaps_app, gaps_app; exact Hg|]. split; [quiet|].
    intros file b Hin. apply in_app_or in Hin as [Hin|Hin].
    { rewrite <- !app_assoc. apply announced_app. apply A1. exact Hin. }
    apply in_app_or in Hin as [Hin|Hin].
    { rewrite <- (app_assoc _ l2 l3). apply announced_app. apply A2. exact Hin. }
    rewrite <- (app_nil_r l3). apply announced_app. apply A3. exact Hin.
  Qed.

  (** What happens after the input has been read. *)
  Lemma rest_same f price ohlc side log :
    untroubled log ->
    same_end (right_end f)
      (let records := map (@price_of_msg lm as_) price in
       let gaps := match price with [] => [] | _ => PrintPriceHistoryGaps records (cf_top_n_gaps f) end in
       do ohlc <- (match price, ohlc with
                   | _ :: _, [] =>
                     if nonempty (cf_output_ohlc f)
                     then omap (map (@msg_of_tick lm as_))
                               (ConvertPriceHistoryToOhlcHistory
                                  (M := I) (d2f (machine := I) (cf_max_price_deviation_per_min f))
                                  (cf_last_n_outliers f) (cf_sampling_rate_sec f) records)
                     else Done []
                   | _, _ => Done ohlc
                   end) ;
       match write_history env PriceRecordType price (cf_output_price f) [] with
       | None => Done (ConvertResult EXIT_FAILURE [] gaps)
       | Some files =>
       match write_history env OhlcTickType ohlc (cf_output_ohlc f) files with
       | None => Done (ConvertResult EXIT_FAILURE files gaps)
       | Some files =>
       match write_history env SideInputRecordType side (cf_output_side f) files with
       | None => Done (ConvertResult EXIT_FAILURE files gaps)
       | Some files => Done (ConvertResult EXIT_SUCCESS files gaps)
       end end end)
      (let records := map (@price_of_msg lm as_) price in
       let log := log ++ match price with
                          | [] => []
                          | _ => Info ("Top " +++ fmt_d (cf_top_n_gaps f) +++ " gaps:")
                                 :: map Info (PrintPriceHistoryGaps records (cf_top_n_gaps f))
                          end in
       do '(l, ohlc) <-
           (match price, ohlc with
            | _ :: _, [] =>
              if nonempty (cf_output_ohlc f)
              then omap (fun '(l, ticks) => (l, map (@msg_of_tick lm as_) ticks))
                        (ConvertPriceHistory (f64_to_f32 (cf_max_price_deviation_per_min f))
                           (cf_last_n_outliers f) (cf_sampling_rate_sec f) records)
              else Done ([], [])
            | _, _ => Done ([], ohlc)
            end) ;
        let log := log ++ l in
        let (l1, w1) := WriteHistory env seconds PriceRecordType 1 price (cf_output_price f) in
        let log := log ++ l1 in
        match w1 with
        | None => Done (EXIT_FAILURE, [], log)
        | Some f1 =>
        let (l2, w2) := WriteHistory env seconds OhlcTickType 2 ohlc (cf_output_ohlc f) in
        let log := log ++ l2 in
        match w2 with
        | None => Done (EXIT_FAILURE, f1, log)
        | Some f2 =>
        let (l3, w3) := WriteHistory env seconds SideInputRecordType 3 side (cf_output_side f) in
        let log := log ++ l3 in
        match w3 with
        | None => Done (EXIT_FAILURE, f1 ++ f2, log)
        | Some f3 => Done (EXIT_SUCCESS, f1 ++ f2 ++ f3, log)
        end end end).
  Proof.
    intros Hl. cbv zeta. set (records := map (@price_of_msg lm as_) price).
    set (gaps := match price with [] => [] | _ => PrintPriceHistoryGaps records (cf_top_n_gaps f) end).
    set (log' := log ++ _).
    assert (U : untroubled log') by (unfold log'; destruct price; quiet).
    assert (G : prints_gaps log' (cf_top_n_gaps f) gaps).
    { unfold log', gaps. destruct price as [|p price]; [left; reflexivity|]. right.
      exists log, (fmt_d (cf_top_n_gaps f)), []. split; [apply number_fmt_d|]. rewrite app_nil_r. reflexivity. }
    apply (same_bind (fun o (r : list console_line * list tick_msg) => snd r = o /\ untroubled (fst r))).
    2:{ intros o [l o'] [E U'] _ _. cbn [fst snd] in E, U'. subst o'. apply writes_same; [quiet|apply gaps_app; exact G]. }
    destruct price as [|p price]; [constructor; split; [reflexivity|quiet]|].
    destruct ohlc as [|t ohlc]; [|constructor; split; [reflexivity|quiet]].
    destruct (nonempty (cf_output_ohlc f)); [|constructor; split; [reflexivity|quiet]].
    unfold omap. apply (same_bind (fun o (r : list console_line * list (@ohlc_tick I)) => snd r = o /\ untroubled (fst r))).
    2:{ intros o [l o'] [E U'] _ _. cbn [fst snd] in E, U'. subst o'. constructor. split; [reflexivity|exact U']. }
    unfold ConvertPriceHistoryToOhlcHistory, ConvertPriceHistory.
    change (d2f (machine := I) (cf_max_price_deviation_per_min f)) with (f64_to_f32 (cf_max_price_deviation_per_min f)).
    change (@flt I) with f32 in *.
    destruct (RemoveOutliers (M := I) records (f64_to_f32 (cf_max_price_deviation_per_min f)) (Some [])) as [clean idx].
    apply (same_bind (fun _ _ => True)).
    { destruct (assert_cases (M := I) (forallb (fun kv : Z * bool => fst kv <? Z.of_nat (List.length records))
        (GetOutlierIndicesWithContext (match idx with Some v => v | None => [] end) (Z.of_nat (List.length records)) 5 5 (size_t_wrap (cf_last_n_outliers f))))) as [->| ->]; constructor. exact Logic.I. }
    intros _ _ _ _ _. destruct (Resample (M := I) clean (cf_sampling_rate_sec f)); cbn [bind]; constructor.
    split; [reflexivity|]. quiet.
  Qed.
End Convert.
