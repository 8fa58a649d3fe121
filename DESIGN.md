# Formal model of petercerno/trader-backtest in Coq

## Layout

- `rocq/theories/Model/*.v`: the model, one file per part of `/repo`; no proofs. Every definition cites
  the file and lines it models.
- `rocq/theories/Spec/*.v`: small specification vocabularies (what a time bucket is, what the last N
  values are, what a Gregorian month is, what a byte of a history file means ...), written without using
  the model's own helper functions.
- `rocq/theories/Proofs/*.v`: lemmas.
- `rocq/theories/Properties/*.v`: the property theorems `Cnn_*`, the non-vacuity examples beside them
  (`*_ex`, `pf_*`, `px_*`, `tm_*`), refutations of naive claims (`*_refuted`) and `Print Assumptions`.
- `MANIFEST.json`: property -> theorems. `seeded/LOG.jsonl`: mutation attempts.

| part of /repo | Model | Spec | Proofs | Properties |
|---|---|---|---|---|
| base/account, base/order | Account, Types | AccountSpec, OrderSpec, AccountIEEESpec, LedgerSpec | AccountExact, AccountAny, AccountIEEE, FloatLemmas, FloatErr, LedgerProofs | AccountProps (C01-C14), LedgerProps (C75, C76) |
| eval (runs) | Eval | RunSpec, ProgressSpec | RunProofs, RunPairs, VolTotal, ProgressProofs, SteadyExact, SteadyFloat | RunProps (C15-C21), RunIEEEProps (C77), ProgressProps (C78, C79), ProgressFloatProps (C80) |
| eval (windows, batches) | Eval, TimeUtil, Batch | EvalSpec, TimeSpec, ReturnSpec, BatchSpec | TimeProofs, EvalProofs, BatchProofs, EvalFloat, ThreadProofs, ProcessProofs | EvalProps (C22-C24, C27-C29), TimeProps (C25, C26), ReturnProps (C81, C82), BatchProps (C90) |
| base/history, base/base.h | Search, History | SeriesSpec, HistorySpec | SearchProofs, SubsetProofs, SeriesProofs, SeriesValid, OrderLaws, OutlierProofs, GapProofs, LastNProofs | HistoryProps (C30-C38) |
| base/side_input | SideInput | SideInputSpec | SideInputProofs | SideInputProps (C39-C41) |
| indicators | Indicators | IndicatorSpec | HelperProofs, MinProofs, MeanProofs, IndicatorProofs, StochProofs, RsiProofs, VolProofs | IndicatorProps (C42-C52) |
| traders | Traders | TraderSpec | TraderProofs, StopFloat, RebalanceFloat, RebalanceProofs | TraderProps (C53-C59) |
| util/proto.h | Proto | ProtoSpec, WireSpec | ProtoProofs, WireProofs | ProtoProps (C60-C62), WireProps (C83) |
| base/account.* in single precision | Account, MachineIEEE | FloatTradeSpec | AccountErr, AccountBook, AccountTrade | AccountFloatProps (C85–C87) |
| all signed integer arithmetic | Ints | IntSpec | IntProofs, IntRunProofs | IntProps (C91) |
| float error of the moving averages | Indicators, MachineIEEE | DriftSpec | DriftProofs, EmaDrift | DriftProps (C92, C93) |
| float error of the RSI | Indicators, MachineIEEE | RsiSpec | RsiFloat | RsiFloatProps (C110) |
| float error of the stochastic oscillator | Indicators, MachineIEEE | StochSpec | StochFloat | StochFloatProps (C111) |
| outlier removal in single precision | History, MachineIEEE | OutlierFloatSpec | OutlierFloat | OutlierFloatProps (C112) |
| orders for a quote amount | Account, MachineR | QuoteSpec | QuoteProofs | QuoteProps (C113) |
| which orders execute in single precision | Account, MachineIEEE | ClearSpec, StuckSpec | ClearFloat, StuckFloat | ClearProps (C114), StuckProps (C115) |
| two runs side by side: a history moved in time, another quote unit | Eval, Traders, Account, SideInput, Indicators | ShiftSpec, QuoteUnitSpec | SimProofs, ShiftProofs, QuoteUnitProofs | ShiftProps (C116), QuoteUnitProps (C117) |
| history files with missing fields | Files, Programs | MissingSpec | (in MissingProps) | MissingProps (C118) |
| the trailing stop in single precision | Traders, MachineIEEE | TrailSpec | TrailFloat | TrailProps (C119) |
| files on a full device, killed programs | Device | DeviceSpec | DeviceProofs | DeviceProps (C120) |
| more money and lower fees | Account, MachineIEEE, MachineR | BetterSpec | BetterProofs | BetterProps (C121) |
| a more liquid market | Account, MachineR | LiquidSpec | (in LiquidProps) | LiquidProps (C122) |
| the gaps convert prints | Convert, Programs, TimeText | GapListSpec | (in GapListProps) | GapListProps (C123) |
| range, monotonicity and units of averages | Indicators, Eval, MachineR, MachineIEEE | RangeSpec | (in RangeProps) | RangeProps (C124) |
| perfect foresight of the fills | Eval, Account, MachineR | GainSpec | (in GainProps; LedgerProofs) | GainProps (C125) |
| perfect foresight in single precision | Eval, Account, MachineIEEE | GainFloatSpec | (in GainFloatProps; AccountErr, AccountBook) | GainFloatProps (C126) |
| extending a price history | History, Convert, Programs | ExtendSpec | (in ExtendProps; OutlierProofs) | ExtendProps (C127) |
| single windows, cut histories and later ends | Eval | WindowSpec | EvalProofs (C22, C06) | WindowProps (C128) |
| growing tables and single lines of the trader program | Programs, Eval | TableSpec | TraderMain (C72, C68), WindowProps (C128) | TableProps (C129) |
| float error of mean, variance, volatility | Indicators, MachineIEEE | VolSpec | VarFloat, SdLipschitz, VolFloat | VarianceProps (C106, C107) |
| float error of averages and score (eval) | Eval, MachineIEEE | ScoreSpec | AvgFloat, ScoreFloat | ScoreProps (C94, C95) |
| traders/rebalancing_trader in single precision | Traders, MachineIEEE | RebalanceSpec | RebalanceErr | RebalanceProps (C96, C97) |
| convert.cc + trader.cc | Programs | PipelineSpec, SetupSpec | PipelineProofs | PipelineProps (C84), SetupProps (C59, C73 constants) |
| convert.cc | Convert, Files, Programs | ReaderSpec, ProgramSpec | ReaderProofs, ConvertProofs, ProgramProofs | ReaderProps (C63, C64, C66, C67), ProgramProps (C69, C70) |
| logging | CsvLogger | LogSpec, StateSpec | LogProofs | LogProps (C65), StateProps (C98) |
| util/time.cc | TimeText | TimeTextSpec, TimeFormSpec | TimeTextProofs, TimeFormProofs | TimeTextProps (C68), TimeFormProps (C99) |
| console output of convert.cc and trader.cc | Console | ConsoleSpec, ConsoleMainSpec | FixedProofs, ReportProofs, ConsoleProofs | ReportProps (C100), OutlierReportProps (C101), ConsoleProps (C102, C103), ConsoleExamples |
| text of CSV files (convert.cc readers + C library) | Scan, Convert | CsvTextSpec, CsvTradeSpec, ExitSpec | ScanProofs | CsvTextProps (C104, C105), CsvTradeProps (C108), ExitProps (C109) |
| trader.cc | Programs | ProgramSpec | TraderMain | TraderMainProps (C71-C74), ReturnProps (C82) |

## How the C++ is modelled

- **Outcomes** (`Model/Outcome.v`). A run ends in `Done v`, `AssertFail` (failed `assert`), `Undefined`
  (C++ undefined behaviour: `front()` of an empty container, division by zero, an iterator range whose
  end precedes its begin), `Thrown` (exception of `vector::at` / `reserve`) or `Diverged` (a loop
  that needs more iterations than the fuel given). A theorem whose conclusion is `= Done v` excludes
  all the others.
- **Arithmetic** (`Model/Machine.v`). All float code is written once over an abstract `machine`
  (C++ `float`, `double`, their operations, comparison, `sqrt`, `floor`, ..., and whether asserts are on).
  Instances: `ieee` (Flocq binary32 / binary64, round to nearest even; `exp`, `log`, `pow` are
  oracles), and `exact` (real arithmetic). Theorems that do not depend on rounding are stated for
  *every* machine and so hold bit for bit for the real program. Theorems about ordering only are
  stated for every machine satisfying the order laws, which both instances are proved to satisfy.
  Where the English claim is about the formula (e.g. "the SMA is the mean") and rounding breaks it, it
  is proved at `exact` and, where we found one, a rounding counterexample at `ieee` is proved
  as `..._refuted`.
- **Integers**: timestamps are unbounded `Z`; `Model/Ints.v` has the functions with int64_t/int arithmetic once more with
  checked ranges (C91). Wrap-around is in the model itself where it matters (`size_t` wrap-around in `GetOutlierIndicesWithContext` and `GetSideInputIndex`, two's complement
  and 64-bit varints in the wire format). C++ `/` on integers is `Z.quot`.
- **Loops** become structural recursion, folds, or recursion with fuel returning `Diverged`.
- **Concurrency**: `EvaluateBatchOfTraders` is modelled with an arbitrary schedule (list of task
  numbers); each step runs one iteration of that task's evaluation loop.

## Validation of the model against the repository's unit tests

`rocq/theories/Validation` runs the repository's own unit tests on the model. `tools/gen_tests.py`
(Python, standard library only) translates all 110 TESTs of the 16 `*_test.cc` files statement by
statement to calls of the model on the IEEE machine, and all their 3230 EXPECT/ASSERT checks
(loops unrolled; a protobuf comparison counted per field) to booleans: EXPECT_FLOAT_EQ is gtest's
"within 4 ulps", protobuf comparisons and log texts are exact. `Check (eq_refl <: test = Done [])`
makes the build fail when a check fails. The math library of these runs is computed in 160-bit
fixed point and rounded once (TestKit.v). All checks pass, among them the bit-exact results,
volatilities, scores and log files of eval/eval_test.cc. What is not reproduced: gzip (the model's
byte stream is the uncompressed one) and the threads of EvaluateBatchOfTraders (a round-robin
schedule). These are tests of the model's fidelity, not proofs; no theorem depends on them, and
they are left out when the theorems are tested against wrong programs (seeded/LOG.jsonl), so that
a mutant can only be caught by a theorem.

## Modelled / not modelled

Modelled: `base/account.*`, `base/base.h` (subsets), `base/history.*`, `base/side_input.*`,
`base/trader.h` (interface), `eval/eval.*`, `indicators/*`, `logging/csv_logger.*`, `logging/logger.h`,
`traders/*`, `util/time.cc` (`AddMonthsToTimestampSec`, `ParseTime`, `FormatTime`), `util/proto.h`
(delimited streams, with the wire format of the three history messages), `convert.cc` (readers,
validators, flag checks, conversion, duration printing, `main` from flags and input files to exit
code, written files and printed gaps), `trader.cc` (`main` from flags and files to exit code, printed table or
ranking, and log files).

Files: an environment says what each readable file contains and which files can be written. Hypothesis
`real_files` where needed: contents are bytes and shorter than 2^63.

Simplifications, all also noted at the definitions:
- Flags arrive parsed (strings, integers, doubles); absl flag parsing is not modelled. Console
  lines are modelled in `Model/Console.v` (durations and `DebugString` are arbitrary texts).
- In Model/Programs.v an opened output file accepts all bytes. Model/Device.v has the runs on a device that accepts
  a limited number of bytes per file (C120); other write errors and the operating system's caches are not modelled.
- Wire format: groups (wire types 3, 4) are treated as damage, tags longer than 32 bits are accepted, a size
  prefix longer than ten bytes is an error (protobuf may report a clean end of file there); unknown fields
  are dropped (nothing reads them).
- `absl::ParseTime` / `FormatTime`: the formats the code uses, as in absl 20211102; absl::Time saturation is not
  modelled.
- Number scanners (`sscanf` `%lld`, `%f`) are oracles that consume a prefix of the line; C104 and C105 assume that they read decimal numbers as the standards require (`reads_numbers`), and `Model/Scan.v` is a scanner that does.
- zlib streams (not compiled in: `HAVE_ZLIB` is defined by no BUILD file, README.md:107), text format of
  protos, memory and performance.
- Threads: tasks share only const data; `Model/Batch.v` preempts a thread between any two of its calls into
  the rest of the code (side input, single orders, Update, volatility, period), defers tasks as std::async may, and
  runs the main thread concurrently. Steps are atomic and sequentially consistent; a failure to start
  a thread is not modelled. `NewTrader` of an emitter is taken to be const and thread-safe.
- Signed overflow: the model files other than `Model/Ints.v` compute with unbounded `Z`. `Model/Ints.v` repeats every function with
  int64_t/int arithmetic with each operation checked, and C91 proves that it agrees with the unbounded one within stated ranges
  (and shows overflow outside them). Not repeated there: row counters of convert.cc's readers, absl's own arithmetic.
- std::sort is any function meeting its specification; on a NaN score (comparison not a strict weak order)
  the model says `Undefined`.

## Trusted base

- Coq 8.16.1's kernel (and `vm_compute`), Flocq's definitions of IEEE-754, the reading of the C++ by the author.
- Compiler: FLT_EVAL_METHOD = 0, no FMA contraction, round-to-nearest-even; asserts enabled unless a
  theorem quantifies over `asserts_on` (most do); libstdc++ `std::max`, `std::min`, `lower_bound`,
  `upper_bound`, `priority_queue`, `sort`, `map`.
- C library number scanners, `exp`, `log`, `pow`: oracles (arbitrary functions); any law used about them is a
  visible hypothesis of the theorem (`roots_exist` in C82, pow(1, y) = 1 in C29, ...).
- protobuf 3.17.3 wire format as described in `Model/Proto.v`; absl civil time = proleptic Gregorian.
- Axioms (`Print Assumptions` of every theorem named in MANIFEST.json: `ASSUMPTIONS.md`; also printed during the build at the end of each Properties file): theorems over an
  arbitrary machine, and all theorems of HistoryProps' structural part, SideInputProps, EvalProps' window and
  batch theorems, TimeProps, ProtoProps, WireProps, LogProps' format part and TimeTextProps are "Closed under the
  global context". Theorems over `exact` or `ieee` use the standard library's real numbers:
  `ClassicalDedekindReals.sig_not_dec`, `ClassicalDedekindReals.sig_forall_dec`,
  `FunctionalExtensionality.functional_extensionality_dep`, and (through Flocq and the
  "returns or exceeds 2^40" theorems) `Classical_Prop.classic`. No other axioms.

## Plan per property

Legend: [any] proved for every machine; [order] for every machine with lawful comparison (both ieee and
exact); [exact] real arithmetic; [ieee] IEEE arithmetic.

| id | plan |
|----|------|
| C01 | [any] case analysis of every order path: `false` => same account; configuration fields never change. |
| C02 | [ieee] sign lemmas for Flocq operations; induction over the order sequence. |
| C03, C04 | [any] characterisation against a declarative settlement relation; [exact] closed form on unit multiples. |
| C05 | [exact] ceil arithmetic; [ieee] monotonicity of rounding; whole number of units. |
| C06 | [exact] value inequality per order, induction over sequence. |
| C07, C08 | [exact] proved up to rounding of the request to the unit; literal claim refuted by witness. |
| C09 | [exact] convex combination; [ieee] exactness for liquidity 1 / 0, refutation by an ulp. |
| C10, C11 | [any] trigger; [exact]/[ieee] price bounds and volume cap. |
| C12 | [any] dispatch table and abort characterisation. |
| C13 | [exact] sum of fees; [ieee] monotone. |
| C14 | [exact] integrality invariant by induction; [ieee] form "unit times integer float". |
| C15 | [any] noninterference by prefix induction. |
| C16 | [any] invariant relating the hint index and latest record. |
| C17, C18, C20, C21 | [any] trace semantics: a list of events independent of the logger. |
| C19 | [any] simulation between fast / non-fast and logger / no logger runs. |
| C22-C24 | [any] loop characterisation; termination from strict growth of window ends; C24 refuted by witness. |
| C25, C26 | calendar proved against a month-length specification; 400-year periodicity and a finite sweep; C26 refuted for day 31. |
| C27 | [any] confluence of schedules. |
| C28, C29 | [exact] means; [ieee] bit equality of gains, score 1 given pow(1, y) = 1. |
| C30 | binary search correctness on sorted histories. |
| C31-C33 | [any] refinement to a bucket specification; [order] well-formedness. |
| C34-C36 | [any] loop invariants. |
| C37 | priority queue invariant; top_n = 0 refuted. |
| C38 | [order] composition of C33/C34/C31 and the reader. |
| C39-C41 | binary search, hint, storage layout. |
| C42, C43 | [any] refinement of the window to the bucket specification; replay of callbacks. |
| C44 | [exact] invariant sum = sum of closes; ieee drift refuted by witness. |
| C45-C47 | [any] recurrence over aggregated closes; [exact] RSI range. |
| C48, C49 | [order] monotone deque invariant; [exact] %K range; [any] %K formula. |
| C50, C51 | [any] window contents; [exact] mean / variance. |
| C52 | [any] path independence: state is a function of the aggregated ticks. |
| C53-C55 | [any]/[order] case analysis of stop trader. |
| C56-C58 | [exact] algebra; validity; refutation of limit price formula for base != 1 and of epsilon = 0. |
| C59 | cartesian product: membership, order, NoDup. |
| C60-C62 | varint / fixed32 round trips, stream induction. |
| C63 | [any] loop invariants of the readers. |
| C64 | refuted by witness (sscanf leaves stale values); proved for well-formed lines. |
| C65 | [ieee] "%.3f" has no comma; column count. |
| C66, C67 | arithmetic / case analysis. |
| C68 | parser inverts formatter; grammar of accepted times; calendar from C25. |
| C69, C70 | programs at [ieee]: case analysis of convert's main; composition of reader, conversion and writer theorems. |
| C71 | broken input files: reading fails, nothing is written. |
| C72-C74 | trader's main: noninterference outside the period; composition of C17-C23 / C65 with the printed rows; sort specification. |
| C75 | [exact] ledger of fills: opening balances plus the sum of fills. |
| C76 | [any] reported total fee, counts and volatilities from the story of the run. |
| C77 | [ieee] balances finite and non-negative along whole runs. |
| C78 | [any] runs return if the trader does and orders are valid. |
| C79 | [exact] factory traders never make a run abort; refuted for zero units. |
| C80 | [ieee] same with rounding error bounds; the escape is a balance above 2^40. |
| C81 | [ieee] windows and products of scores stay in range: evaluation and batches return. |
| C82 | [ieee] C81 composed with C72-C74: the program exits with its table / ranking. |
| C83 | grammar of the wire format; reader accepts exactly its files. |
| C84 | composition of C70 with C82: series of the kept records is strictly ordered and quoted (volume sums bounded by absorption at 2^40), the file is read back, `ready` holds. |
| C85 | forward error analysis of ExecuteOrder at `ieee`: each float operation is within eps of the exact one (FloatErr), the errors of price, base amount, quote amount and fee are bounded in turn; the exact rules of AccountSpec restated with the tolerance `tol`. |
| C86 | a float that is `unit * k` (k < 2^22) determines k; sums and differences of such floats are rounded by the code to the float nearest to the exact whole number of units; induction over the order sequence (`unit_ledger`). |
| C87 | from C85's price/quote relation and C86's unit numbers. |
| C88 | [ieee] printf's rounding of the exact dyadic value, against an independent reader of decimals (Spec/DecimalSpec.v); composed with C65 for whole logs. |
| C89 | [ieee] C86's one-order step along the rows of the story (RunSpec); orders of factory traders are in range because the views they are shown are (C80's argument, along the story). |
| C90 | [any] small-step threads (Model/Batch.v) simulate one iteration of the coarse loop (ThreadProofs); invariant and decreasing measure of the process (ProcessProofs); fairness by strong induction on the measure. |
| C91 | Model/Ints.v: the integer-computing functions with every int64_t/int operation checked; agreement with the unbounded functions by invariants (newest tick at period*q, counters at most the number of periods so far); witnesses of overflow outside the bounds |
| C92 | Model/Indicators.v at the IEEE machine; invariant: the float sum is within (events)*2^-23*(window+6)*2^k of the exact one; error of each Bplus/Bminus/Bdiv from Flocq |
| C93 | Spec/DriftSpec.v: the averages over the reals; Proofs/EmaDrift.v: one step contracts the error by 1-W and adds at most 2^-21*2^k, so 2^-21*2^k/W is an invariant; perturbation lemmas for the weight and for the inputs (signal line) |
| C94 | Spec: IndicatorSpec.mean over the reals; Proofs/AvgFloat.v: a float sum has only relative errors (no underflow in +), so the error is at most n*2^-23 of the sum; one more error for the division |
| C95 | Spec/ScoreSpec.v: pow_accurate; Proofs/ScoreFloat.v: the double product is X*F with (1-2^-23)^n <= F <= (1+2^-23)^n, so the n-th root of F is within 2^-23 of 1; the rounded exponent 1/n changes the power by exp(e/n*ln P), |ln P| <= 1000 |
| C96 | Spec/RebalanceSpec.v: rebalances_at_market over the reals; Proofs/RebalanceErr.v: absolute error of the float share (6 ulps of 1), of both thresholds and of the traded value relative to the portfolio value |
| C97 | Proofs/RebalanceErr.v: relative errors (no underflow in these ranges), the error of 1-A bounded by 2^-22.9/(1-A) |
| C98 | Spec/StateSpec.v: the lines in terms of the rows of the story; from C65_log_files and the update functions |
| C99 | Spec/TimeFormSpec.v: the grammar as an inductive relation; Proofs/TimeFormProofs.v: inversion and completeness of every field parser |
| C100 | Model/Console.v repeats the readers with their messages (ReportProofs.v proves that they accept what the readers of Convert.v accept); Spec/ConsoleSpec.v: the ordered demands and the first broken one; induction over lines / messages |
| C101 | Spec/ConsoleSpec.v: outlier_report, an inductive relation between shown indices and lines; Properties/OutlierReportProps.v: from C35 and C36 by induction over the shown records |
| C102 | Model/Console.v: convert_console, main with its console; Proofs/ConsoleProofs.v relates it to convert_main by case analysis on the paths of main (same_end) |
| C103 | Model/Console.v: trader_console; f32_fmt p is proved to show every finite float to the nearest unit of the p-th decimal (Proofs/FixedProofs.v); Properties/ConsoleProps.v |
| C104 | Spec/CsvTextSpec.v: the grammar of numbers and lines as relations, nearest float by Flocq's round; Model/Scan.v + Proofs/ScanProofs.v: a scanner with exact decimal-to-binary rounding meets it; Properties/CsvTextProps.v: composition with C63, C64, C70 |
| C105 | Spec/CsvTextSpec.v: sensible_price / sensible_ohlc over the real values of the texts; rounding is monotone and keeps representable bounds, then C104 and C70 |
| C106 | IEEE machine; induction over the values with an error budget per update of the two running sums (add_event, sub_event, add_square_event, sub_square_event), squares proved exact in double; then division, subtraction and square root |
| C107 | IEEE machine against exact machine on the same inputs: relative error of values, quotients and logs, C106's bound for the float standard deviation, and sd_lipschitz (the standard deviation moves by at most the largest change of a value, via Cauchy-Schwarz) |
| C108 | Spec/CsvTradeSpec.v: lines whose written numbers are in range; rounding keeps a number between two floats; composition of C104/C105 with C84 |
| C109 | Spec/ExitSpec.v: what the input says, the records used, the outputs needed; C104/C63 decide validity, write_history decides the outputs |
| C110 | [ieee] Spec/RsiSpec.v: exact averages over the reals; Proofs/RsiFloat.v: invariant |error| <= 12 u 2^k min(i,n) along the fold, weight 1/min(i,n) rounded once per step; Lipschitz bound of the quotient |
| C111 | [ieee] Spec/StochSpec.v: spans; exact values are C48's percent_k, fast_d, slow_d of the same numbers; Proofs/StochFloat.v: four roundings of one %K, then C106's mean error along the periods (updates of the current period are replacements, C52) |
| C112 | [ieee] Spec/OutlierFloatSpec.v: clear decisions; Proofs/OutlierFloat.v: relative error of the edges (17 units of 2^-24) and thresholds (26), then the masks of C35 on floats and on reals agree by induction |
| C113 | Model/Account.v's quote-amount operations; case analysis against the real-number plan in Spec/QuoteSpec.v, existence of the plan, bounds by monotonicity of fees and rounding. |
| C114 | error bounds of AccountErr/AccountBook turned into sufficient and necessary conditions for execution (ClearFloat, ClearProps) |
| C115 | monotonicity of the roundings reduces every price to one literal computation (StuckFloat); idle-run invariant (StuckProps) |
| C116 | Simulation of two runs by relations preserved by every operation (Proofs/SimProofs: `simulates`, `simulation`; LastNOhlcTicks in `update_sim`), instantiated with 'd seconds later' (Proofs/ShiftProofs). |
| C117 | The account operations commute with scaling (Proofs/QuoteUnitProofs: `ExecuteOrder_k`), so do both traders' updates and the volatility; then the simulation of C116 and an induction over the evaluation loop. |
| C118 | The getters of a message and of its completed message agree (the bits of 0.0 are 0); the readers only look at getters, so both programs agree (rows_in_range commutes with completing); a missing price reads 0 and fails the validator. |
| C119 | IEEE machine, error analysis of log, division, exp and the product; induction over the stretch |
| C120 | invariant of the buffered stream over the bytes; truncation of delimited files (C61, C71) |
| C121 | monotonicity of every float step (rounding, unit rounding, fee) under the account ranges; exact arithmetic through quote_order; counterexamples by evaluation |
| C122 | execution prices are monotone in the liquidity; the net proceeds are monotone in the price because fees are at most 100%; settlement from C03/C04 |
| C123 | composition: C37's gap theorem, calendar texts (C68), durations, then the program theorems C105 and C69's written-file characterisation |
| C124 | from C44-C46, C48, C50, C51 and C28 (what is reported) by facts about means, exponential averages, variances (Popoviciu's inequality) and geometric means; the series of two related histories are related by induction over the updates |
| C125 | from the books of C75: each trade does not raise value plus fees at its price clamped into the tick; a portfolio without debts gains at most the rise between two prices; products of rises shrink when points are dropped |
| C126 | balances of whole units as exact integers: each executed order's float price is within 2^-22 of its candle and its rounded cost gives away at most a fraction 2^-17 of the wealth plus a quote unit; induction over the story |
| C127 | the mask of kept records as a left-to-right function whose look-ahead stops after ten well-formed records; the resampling fold only touches its newest candle; C70 for the program |
| C128 | C22's equation with the fold over the windows; one step of the loop depends on the history only through the ticks of its window; the log does not influence a run (C06) |
| C129 | C128 for the evaluation, the reading of the files (C72), printed times read back (C68) |
