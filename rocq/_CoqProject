-Q theories Verif
theories/Model/Account.v
theories/Model/Batch.v
theories/Model/Console.v
theories/Model/Convert.v
theories/Model/CsvLogger.v
theories/Model/Device.v
theories/Model/Eval.v
theories/Model/Files.v
theories/Model/History.v
theories/Model/Indicators.v
theories/Model/Ints.v
theories/Model/Machine.v
theories/Model/MachineIEEE.v
theories/Model/MachineR.v
theories/Model/Outcome.v
theories/Model/Programs.v
theories/Model/Proto.v
theories/Model/Scan.v
theories/Model/Search.v
theories/Model/SideInput.v
theories/Model/TimeText.v
theories/Model/TimeUtil.v
theories/Model/Traders.v
theories/Model/Types.v
theories/Proofs/AccountAny.v
theories/Proofs/AccountBook.v
theories/Proofs/AccountErr.v
theories/Proofs/AccountExact.v
theories/Proofs/AccountIEEE.v
theories/Proofs/AccountTrade.v
theories/Proofs/AvgFloat.v
theories/Proofs/Base.v
theories/Proofs/BatchProofs.v
theories/Proofs/BetterProofs.v
theories/Proofs/ClearFloat.v
theories/Proofs/ConsoleProofs.v
theories/Proofs/ConvertProofs.v
theories/Proofs/DecimalProofs.v
theories/Proofs/DeviceProofs.v
theories/Proofs/DriftProofs.v
theories/Proofs/EmaDrift.v
theories/Proofs/EvalFloat.v
theories/Proofs/EvalProofs.v
theories/Proofs/FixedProofs.v
theories/Proofs/FloatErr.v
theories/Proofs/FloatLemmas.v
theories/Proofs/GapProofs.v
theories/Proofs/HelperProofs.v
theories/Proofs/IndicatorProofs.v
theories/Proofs/IntProofs.v
theories/Proofs/IntRunProofs.v
theories/Proofs/LastNProofs.v
theories/Proofs/LedgerProofs.v
theories/Proofs/LogProofs.v
theories/Proofs/MeanProofs.v
theories/Proofs/MinProofs.v
theories/Proofs/OrderLaws.v
theories/Proofs/OutlierFloat.v
theories/Proofs/OutlierProofs.v
theories/Proofs/PipelineProofs.v
theories/Proofs/ProcessProofs.v
theories/Proofs/ProgramProofs.v
theories/Proofs/ProgressProofs.v
theories/Proofs/ProtoProofs.v
theories/Proofs/QuoteProofs.v
theories/Proofs/QuoteUnitProofs.v
theories/Proofs/ReaderProofs.v
theories/Proofs/RebalanceErr.v
theories/Proofs/RebalanceFloat.v
theories/Proofs/RebalanceProofs.v
theories/Proofs/ReportProofs.v
theories/Proofs/RsiFloat.v
theories/Proofs/RsiProofs.v
theories/Proofs/RunPairs.v
theories/Proofs/RunProofs.v
theories/Proofs/ScanProofs.v
theories/Proofs/ScoreFloat.v
theories/Proofs/SdLipschitz.v
theories/Proofs/SearchProofs.v
theories/Proofs/SeriesProofs.v
theories/Proofs/SeriesValid.v
theories/Proofs/ShiftProofs.v
theories/Proofs/SideInputProofs.v
theories/Proofs/SimProofs.v
theories/Proofs/SteadyExact.v
theories/Proofs/SteadyFloat.v
theories/Proofs/StochFloat.v
theories/Proofs/StochProofs.v
theories/Proofs/StopFloat.v
theories/Proofs/StuckFloat.v
theories/Proofs/SubsetProofs.v
theories/Proofs/ThreadProofs.v
theories/Proofs/TimeFormProofs.v
theories/Proofs/TimeProofs.v
theories/Proofs/TimeTextProofs.v
theories/Proofs/TraderMain.v
theories/Proofs/TraderProofs.v
theories/Proofs/TrailFloat.v
theories/Proofs/VarFloat.v
theories/Proofs/VolFloat.v
theories/Proofs/VolProofs.v
theories/Proofs/VolTotal.v
theories/Proofs/WireProofs.v
theories/Properties/AccountFloatProps.v
theories/Properties/AccountProps.v
theories/Properties/BatchProps.v
theories/Properties/BetterProps.v
theories/Properties/ClearProps.v
theories/Properties/ConsoleExamples.v
theories/Properties/ConsoleProps.v
theories/Properties/CsvTextProps.v
theories/Properties/CsvTradeProps.v
theories/Properties/DecimalProps.v
theories/Properties/DeviceProps.v
theories/Properties/DriftProps.v
theories/Properties/EvalProps.v
theories/Properties/ExitProps.v
theories/Properties/ExtendProps.v
theories/Properties/GainFloatProps.v
theories/Properties/GainProps.v
theories/Properties/GapListProps.v
theories/Properties/HistoryProps.v
theories/Properties/IndicatorProps.v
theories/Properties/IntProps.v
theories/Properties/LedgerProps.v
theories/Properties/LiquidProps.v
theories/Properties/LogProps.v
theories/Properties/MissingProps.v
theories/Properties/OutlierFloatProps.v
theories/Properties/OutlierReportProps.v
theories/Properties/PipelineProps.v
theories/Properties/ProgramProps.v
theories/Properties/ProgressFloatProps.v
theories/Properties/ProgressProps.v
theories/Properties/ProtoProps.v
theories/Properties/QuoteProps.v
theories/Properties/QuoteUnitProps.v
theories/Properties/RangeProps.v
theories/Properties/ReaderProps.v
theories/Properties/RebalanceProps.v
theories/Properties/ReportProps.v
theories/Properties/ReturnProps.v
theories/Properties/RsiFloatProps.v
theories/Properties/RunIEEEProps.v
theories/Properties/RunProps.v
theories/Properties/ScoreProps.v
theories/Properties/SetupProps.v
theories/Properties/ShiftProps.v
theories/Properties/SideInputProps.v
theories/Properties/StateProps.v
theories/Properties/StochFloatProps.v
theories/Properties/StuckProps.v
theories/Properties/TableProps.v
theories/Properties/TimeFormProps.v
theories/Properties/TimeProps.v
theories/Properties/TimeTextProps.v
theories/Properties/TraderMainProps.v
theories/Properties/TraderProps.v
theories/Properties/TrailProps.v
theories/Properties/UnitRunProps.v
theories/Properties/VarianceProps.v
theories/Properties/WindowProps.v
theories/Properties/WireProps.v
theories/Spec/AccountIEEESpec.v
theories/Spec/AccountSpec.v
theories/Spec/BatchSpec.v
theories/Spec/BetterSpec.v
theories/Spec/ClearSpec.v
theories/Spec/ConsoleMainSpec.v
theories/Spec/ConsoleSpec.v
theories/Spec/CsvTextSpec.v
theories/Spec/CsvTradeSpec.v
theories/Spec/DecimalSpec.v
theories/Spec/DeviceSpec.v
theories/Spec/DriftSpec.v
theories/Spec/EvalSpec.v
theories/Spec/ExitSpec.v
theories/Spec/ExtendSpec.v
theories/Spec/FloatTradeSpec.v
theories/Spec/GainFloatSpec.v
theories/Spec/GainSpec.v
theories/Spec/GapListSpec.v
theories/Spec/HistorySpec.v
theories/Spec/IndicatorSpec.v
theories/Spec/IntSpec.v
theories/Spec/LedgerSpec.v
theories/Spec/LiquidSpec.v
theories/Spec/LogSpec.v
theories/Spec/MissingSpec.v
theories/Spec/OrderSpec.v
theories/Spec/OutlierFloatSpec.v
theories/Spec/PipelineSpec.v
theories/Spec/ProgramSpec.v
theories/Spec/ProgressSpec.v
theories/Spec/ProtoSpec.v
theories/Spec/QuoteSpec.v
theories/Spec/QuoteUnitSpec.v
theories/Spec/RangeSpec.v
theories/Spec/ReaderSpec.v
theories/Spec/RebalanceSpec.v
theories/Spec/ReturnSpec.v
theories/Spec/RsiSpec.v
theories/Spec/RunSpec.v
theories/Spec/ScoreSpec.v
theories/Spec/SeriesSpec.v
theories/Spec/SetupSpec.v
theories/Spec/ShiftSpec.v
theories/Spec/SideInputSpec.v
theories/Spec/StateSpec.v
theories/Spec/StochSpec.v
theories/Spec/StuckSpec.v
theories/Spec/TableSpec.v
theories/Spec/TimeFormSpec.v
theories/Spec/TimeSpec.v
theories/Spec/TimeTextSpec.v
theories/Spec/TraderSpec.v
theories/Spec/TrailSpec.v
theories/Spec/VolSpec.v
theories/Spec/WindowSpec.v
theories/Spec/WireSpec.v
theories/Validation/AccountTest.v
theories/Validation/EvalTest.v
theories/Validation/HistoryTest.v
theories/Validation/IndicatorTest.v
theories/Validation/IndicatorUtilTest.v
theories/Validation/LoggerTest.v
theories/Validation/ProtoTest.v
theories/Validation/SideInputTest.v
theories/Validation/TestKit.v
theories/Validation/TimeTest.v
