(** Two whole runs as seen on the console (for C102 and C103). *)
From Coq Require Import ZArith Bool String Ascii.
From Coq Require Import List.
From Verif.Model Require Import Outcome Machine Types Eval Traders Proto Convert MachineIEEE Files Programs Console.
From Verif.Spec Require Import LogSpec ProgramSpec PipelineSpec ConsoleSpec ConsoleMainSpec.
From Verif.Properties Require Import ReaderProps ProgramProps TraderMainProps PipelineProps.
Import ListNotations.
Local Open Scope string_scope.

Definition text_of (l : console_line) : string := match l with Info s => s | Error s => "ERROR " ++ s end.
Definition ex_seconds (k : nat) : string := "0.001".
Definition ex_debug (T : message_type) (m : msg T) : string := "record".
Definition bytes_of (r : outcome (exit_code * list (string * bytes) * list console_line)) : list (string * bytes) :=
  match r with Done (_, files, _) => files | _ => [] end.
Definition console_of {A} (r : outcome (exit_code * list A * list console_line)) : option (exit_code * list string) :=
  match r with Done (x, _, log) => Some (x, map text_of log) | _ => None end.
Local Notation EM := (ieee tm_libm true).

Lemma C102_ex :
  console_of (convert_console ex_env (@digits EM) ex_seconds ex_debug pl_convert)
  = Some (EXIT_SUCCESS,
      ["Selected time period:" ++ line_end ++ "[1970-01-01 00:00:02 - 1970-01-01 00:00:09)";
       "Reading price history from CSV file: in.csv"; "Loaded 2 records in 0.001 seconds"; "Top 5 gaps:";
       "2 [1970-01-01 00:00:02] - 4 [1970-01-01 00:00:04]: 0:00:02";
       "Removed 0 outliers"; "Last 5 outliers:"; "Resampled 2 records to 3 OHLC ticks";
       "Writing 2 records to the file: p.bin"; "Finished in 0.001 seconds";
       "Writing 3 records to the file: o.bin"; "Finished in 0.001 seconds"])
  /\ console_of (convert_console ex_env (@digits EM) ex_seconds ex_debug
       (ex_flags (InputFlags "in2.csv" "" "" "" "") "1970-01-01 00:00:02" "1970-01-01 00:00:09"))
  = Some (EXIT_FAILURE,
      ["Selected time period:" ++ line_end ++ "[1970-01-01 00:00:02 - 1970-01-01 00:00:09)";
       "Reading price history from CSV file: in2.csv"; "ERROR Cannot open the file: in2.csv"])
  /\ console_of (convert_console ex_env (@digits EM) ex_seconds ex_debug
       (ex_flags (InputFlags "in.csv" "" "" "" "side.csv") "1970-01-01" "1970-01-02"))
  = Some (EXIT_FAILURE,
      ["Selected time period:" ++ line_end ++ "[1970-01-01 00:00:00 - 1970-01-02 00:00:00)";
       "ERROR Cannot read more than one input history file"]).
Proof. vm_compute. repeat split. Qed.

Definition ex_after : environment :=
  after ex_env (bytes_of (convert_console ex_env (@digits EM) ex_seconds ex_debug pl_convert)).
Lemma C103_ex :
  console_of (trader_console ex_after ex_seconds "account" "evaluation" tm_sort 100 [] pl_flags)
  = Some (EXIT_SUCCESS,
      ["Trader AccountConfig:"; "account";
       "Selected time period:" ++ line_end ++ "[1970-01-01 00:00:02 - 1970-01-01 00:00:09)";
       line_end ++ "Trader EvaluationConfig:"; "evaluation"; "Reading OHLC history from: o.bin";
       "- Loaded 3 records in 0.001 seconds";
       "- Selected 3 records within the time period: [1970-01-01 00:00:02 - 1970-01-01 00:00:09)";
       line_end ++ "rebalancing-trader[0.700|0.050] evaluation:";
       "------------------ period ------------------    trader & base gain    score    t&b volatility";
       "[1970-01-01 00:00:02 - 1970-01-01 00:00:09):      9.29%     14.29%    0.956    0.000    0.000";
       line_end ++ "Evaluated in 0.001 seconds"])
  /\ console_of (trader_console ex_env ex_seconds "account" "evaluation" tm_sort 100 [] pl_flags)
  = Some (EXIT_FAILURE,
      ["Trader AccountConfig:"; "account";
       "Selected time period:" ++ line_end ++ "[1970-01-01 00:00:02 - 1970-01-01 00:00:09)";
       line_end ++ "Trader EvaluationConfig:"; "evaluation"; "Reading OHLC history from: o.bin";
       "ERROR Cannot open the input file: o.bin"]).
Proof. vm_compute. repeat split. Qed.
