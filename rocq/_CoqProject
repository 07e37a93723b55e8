-Q theories Verif
theories/Base.v
theories/FreqcdModel.v
theories/FreqcdSpec.v
theories/FreqcdProofs.v
theories/FreqcdProofs2.v
theories/FreqcdProofs3.v
theories/FreqcdProofs4.v
theories/FreqcdProofs5.v
theories/FreqcdProofs6.v
theories/FreqcdProofs7.v
theories/FreqcdProofs8.v
theories/FreqcdExamples.v
theories/FreqcdStatements.v
theories/FreqcdRefute.v
theories/FreqcdProofs9.v
theories/FreqcdProps.v
theories/Float.v
theories/FreqcdCli.v
theories/FreqcdCliSpec.v
theories/FreqcdCliStatements.v
theories/FreqcdCliProofs.v
theories/FreqcdCliRefute.v
theories/FreqcdCliProps.v
theories/TimestampsModel.v
theories/TimestampsSpec.v
theories/TimestampsStatements.v
theories/TimestampsProofs.v
theories/TimestampsProofs2.v
theories/TimestampsProofs3.v
theories/TimestampsProofs4.v
theories/TimestampsProofs5.v
theories/TimestampsProofs6.v
theories/TimestampsProofs7.v
theories/TimestampsRefute.v
theories/TimestampsExamples.v
theories/TimestampsProps.v
theories/EpochsModel.v
theories/EpochsSpec.v
theories/EpochsStatements.v
theories/EpochsProofs.v
theories/EpochsProofs2.v
theories/EpochsProofs3.v
theories/EpochsProofs4.v
theories/EpochsProofs5.v
theories/EpochsProofs6.v
theories/EpochsProofs7.v
theories/EpochsRefute.v
theories/EpochsProps.v
theories/UtilsModel.v
theories/FpfindModel.v
theories/UtilsSpec.v
theories/UtilsProofs.v
theories/UtilsProofs2.v
theories/UtilsProofs3.v
theories/UtilsRefute.v
theories/UtilsProps.v
theories/FpfindSpec.v
theories/FpfindProofs.v
theories/FpfindProofs2.v
theories/FpfindProofs3.v
theories/FpfindProofs4.v
theories/FpfindRefute.v
theories/FpfindPipe.v
theories/FpfindProps.v
theories/MiscModel.v
theories/MiscSpec.v
theories/MiscProofs.v
theories/MiscProofs2.v
theories/MiscRefute.v
theories/MiscProps.v
theories/MainModel.v
theories/MainProofs.v
theories/MainProofs2.v
theories/MainProofs3.v
theories/MainProps.v
theories/ReportModel.v
theories/ReportSpec.v
theories/ReportProofs.v
theories/ReportProofs2.v
theories/ReportProofs3.v
theories/ReportProps.v
theories/PipeSpec.v
theories/PipeProofs.v
theories/PipeProps.v
theories/MainSpec2.v
theories/MainProofs4.v
theories/EndProofs.v
theories/EndProps.v
theories/EpochRunSpec.v
theories/EpochRunProofs.v
theories/EpochRunProps.v
theories/PlotModel.v
theories/PlotSpec.v
theories/PlotProofs.v
theories/PlotProps.v
theories/CdFileSpec.v
theories/CdFileProofs.v
theories/CdFileProps.v
theories/DetuneModel.v
theories/DetuneSpec.v
theories/DetuneProofs.v
theories/DetuneProofs2.v
theories/DetuneProps.v
theories/PairSpec.v
theories/PairProofs.v
theories/PairProofs2.v
theories/PairProps.v
theories/FftModel.v
theories/FftProofs.v
theories/FftProps.v
theories/AccuracySpec.v
theories/AccuracyProofs.v
theories/AccuracyProps.v
theories/SignalSpec.v
theories/SignalProofs.v
theories/SignalCase.v
theories/SignalProps.v
theories/RoundedSpec.v
theories/RoundedProofs.v
theories/RoundedProps.v
theories/CdRunModel.v
theories/CdRunSpec.v
theories/CdRunStatements.v
theories/CdRunProofs.v
theories/CdRunProofs2.v
theories/CdRunProofs3.v
theories/CdRunRefute.v
theories/CdRunProps.v
theories/WholeSpec.v
theories/WholeProofs.v
theories/WholeProofs2.v
theories/WholeCase.v
theories/WholeProps.v
theories/PrecompSpec.v
theories/PrecompProofs.v
theories/PrecompCase.v
theories/PrecompProps.v
theories/ChainSpec.v
theories/ChainProofs.v
theories/ChainCase.v
theories/ChainProps.v
theories/SwapSpec.v
theories/SwapProofs.v
theories/SwapCheck.v
theories/SwapCase.v
theories/SwapProps.v
theories/RepoTests.v
theories/ExistSpec.v
theories/ExistProofs.v
theories/ExistCheck.v
theories/ExistCase.v
theories/ExistProps.v
theories/ArgModel.v
theories/FpCliModel.v
theories/FpCliSpec.v
theories/FpCliProofs.v
theories/FpCliCase.v
theories/FpCliProps.v
theories/CliSpec.v
theories/CliProofs.v
theories/TsCliModel.v
theories/TsCliSpec.v
theories/TsCliProofs.v
theories/TsCliProofs2.v
theories/TsCliProofs3.v
theories/TsCliCase.v
theories/TsCliProps.v
theories/SkipSpec.v
theories/SkipProofs.v
theories/SkipCase.v
theories/SkipProps.v
theories/ChopSpec.v
theories/ChopProofs.v
theories/ChopProps.v
theories/ReadmeSpec.v
theories/ReadmeProofs.v
theories/ReadmeProofs2.v
theories/ReadmeProps.v
theories/ReadmeProps2.v
theories/GenCliModel.v
theories/GenCliSpec.v
theories/GenCliProofs.v
theories/GenCliProofs2.v
theories/GenCliProofs3.v
theories/GenCliChain.v
theories/GenCliCase.v
theories/GenCliProps.v
theories/GenCliProps2.v
theories/ScanSpec.v
theories/ScanProofs.v
theories/ScanCase.v
theories/ScanCli.v
theories/ScanProps.v
theories/FftErrSpec.v
theories/FftErrProofs.v
theories/FftErrCase.v
theories/FftErrRun.v
theories/FftErrProps.v
theories/GroundSpec.v
theories/GroundProofs.v
theories/GroundProofs2.v
theories/GroundRun.v
theories/GroundCheck.v
theories/GroundCase.v
theories/GroundProps.v
theories/SteadyCase.v
theories/SteadyProofs.v
theories/SteadyProps.v
theories/GuardSpec.v
theories/GuardProofs.v
theories/GuardProps.v
theories/PromSpec.v
theories/PromProofs.v
theories/PromProofs2.v
theories/PromRun.v
theories/PromCase.v
theories/PromProps.v
theories/ScoreModel.v
theories/ScoreSpec.v
theories/ScoreProofs.v
theories/ScoreCase.v
theories/ScoreProps.v
theories/EqSpec.v
theories/EqProofs.v
theories/EqCase.v
theories/EqProps.v
theories/RoundModel.v
theories/RoundSpec.v
theories/RoundProofs.v
theories/RoundProofs2.v
theories/RoundProofs3.v
theories/RoundProofs4.v
theories/RoundCase.v
theories/RoundProps.v
theories/ScanLogModel.v
theories/ScanLogSpec.v
theories/ScanLogProofs.v
theories/ScanLogProofs2.v
theories/ScanLogCase.v
theories/ScanLogProps.v
theories/LoggersModel.v
theories/LoggersSpec.v
theories/LoggersProofs.v
theories/LoggersProps.v
theories/FilterModel.v
theories/FilterSpec.v
theories/FilterProofs.v
theories/FilterProps.v
theories/TextModel.v
theories/TextSpec.v
theories/TextProofs.v
theories/TextProofs2.v
theories/TextProps.v
theories/StubModel.v
theories/StubSpec.v
theories/StubProofs.v
theories/StubProps.v
theories/PlotCliModel.v
theories/PlotCliSpec.v
theories/PlotCliProofs.v
theories/PlotCliSpec2.v
theories/PlotCliCase.v
theories/PlotCliProps.v
theories/HelpModel.v
theories/HelpSpec.v
theories/HelpProofs.v
theories/HelpProps.v
theories/Peak2Model.v
theories/Peak2Spec.v
theories/Peak2Proofs.v
theories/Peak2Props.v
theories/DateModel.v
theories/DateSpec.v
theories/DateProofs.v
theories/DateProps.v
theories/Loggers2Spec.v
theories/Loggers2Proofs.v
theories/Loggers2Props.v
theories/HeadModel.v
theories/HeadSpec.v
theories/HeadProofs.v
theories/HeadProps.v
theories/T3SizeSpec.v
theories/T3SizeProofs.v
theories/T3SizeProps.v
theories/ProfileModel.v
theories/ProfileSpec.v
theories/ProfileProofs.v
theories/ProfileProps.v
theories/CdExactSpec.v
theories/CdExactProofs.v
theories/CdExactProps.v
theories/LimitsSpec.v
theories/LimitsProofs.v
theories/LimitsProps.v
theories/FqPipeSpec.v
theories/FqPipeProofs.v
theories/FqPipeProps.v
theories/FqOffSpec.v
theories/FqOffProofs.v
theories/FqOffProps.v
theories/FqExactSpec.v
theories/FqExactProofs.v
theories/FqExactProps.v
theories/WidthSpec.v
theories/WidthProofs.v
theories/WidthProps.v
theories/GenRefuseSpec.v
theories/GenRefuseProofs.v
theories/GenRefuseProps.v
theories/LongFqSpec.v
theories/LongFqProofs.v
theories/LongFqProofs2.v
theories/LongFqProofs3.v
theories/LongFqProps.v
theories/AnyFqSpec.v
theories/AnyFqProofs.v
theories/AnyFqProps.v
theories/NumRefuseSpec.v
theories/NumRefuseProofs.v
theories/NumRefuseProofs2.v
theories/NumRefuseProps.v
theories/IndexProofs.v
theories/IndexProps.v
theories/ExtremeSpec.v
theories/ExtremeProofs.v
theories/ExtremeProps.v
theories/CdWordSpec.v
theories/CdWordProofs.v
theories/CdWordProps.v
theories/CdNameSpec.v
theories/CdNameProofs.v
theories/CdNameProps.v
theories/TypedSpec.v
theories/TypedProofs.v
theories/TypedProps.v
theories/AnyTimeSpec.v
theories/AnyTimeProofs.v
theories/AnyTimeProps.v
theories/SpellSpec.v
theories/SpellProofs.v
theories/SpellProofs2.v
theories/SpellCase.v
theories/SpellProps.v
theories/GenOutSpec.v
theories/GenOutProofs.v
theories/GenOutProps.v
theories/GenTsProofs.v
theories/GenTsProps.v
theories/GenBackSpec.v
theories/GenBackProofs.v
theories/GenBackProps.v
theories/GenOldSpec.v
theories/GenOldProofs.v
theories/GenOldProps.v
theories/GenExactProofs.v
theories/GenExactProps.v
theories/GenPipeSpec.v
theories/GenPipeProofs.v
theories/GenPipeProps.v
theories/GenFullProofs.v
theories/GenFullProps.v
theories/GenLegacyProofs.v
theories/GenLegacyProps.v
