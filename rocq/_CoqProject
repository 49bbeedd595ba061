-Q theories Verif
theories/Py.v
theories/PyFacts.v
theories/Deriv.v
theories/Base.v
theories/BaseFacts.v
theories/BaseProps.v
theories/Expressions.v
theories/ExprSpec.v
theories/ExprFacts.v
theories/ExprGrad.v
theories/ExprReplace.v
theories/ExprProps.v
theories/RSort.v
theories/Norms.v
theories/Sample.v
theories/Vander.v
theories/SampleFacts.v
theories/SampleProps.v
theories/Channels.v
theories/ChannelFacts.v
theories/ChannelProps.v
theories/Params.v
theories/ParamsFacts.v
theories/ParamsProps.v
theories/Core.v
theories/CoreFacts.v
theories/CoreSpec.v
theories/CoreCoefs.v
theories/CoreYields.v
theories/CoreExample.v
theories/CoreProps.v
theories/YieldProps.v
theories/CutProps.v
theories/NllFacts.v
theories/NllProps.v
theories/NllGrad.v
theories/NllHess.v
theories/NllGradProps.v
theories/ModelIO.v
theories/ModelIOFacts.v
theories/ModelIOProps.v
theories/DataProps.v
theories/TestStat.v
theories/NormalSf.v
theories/TestStatProps.v
theories/Sampling.v
theories/SamplingFacts.v
theories/SamplingProps.v
theories/LockProto.v
theories/LockProps.v
theories/FileName.v
theories/FileNameProps.v
theories/NpMin.v
theories/NpMinSpec.v
theories/NpMinFacts.v
theories/NpMinProps.v
theories/PoiMin.v
theories/PoiMinFacts.v
theories/PoiMinProps.v
theories/PoiHistProps.v
theories/Samplers.v
theories/SamplersProps.v
theories/FitData.v
theories/FitDataFacts.v
theories/FitDataProps.v
theories/RasterProps.v
theories/Scans.v
theories/ScansProps.v
theories/Calculators.v
theories/CalcFacts.v
theories/CalcProps.v
theories/CalcBoundProps.v
theories/ModelTools.v
theories/ModelToolsFacts.v
theories/SamplePruneProps.v
theories/MergeProps.v
theories/ReparamFacts.v
theories/ReparamProps.v
theories/NPPruneFacts.v
theories/NPPruneProps.v
theories/ChannelMergeFacts.v
theories/ChannelMergeProps.v
theories/ChannelMergeFailProps.v
theories/NllSumProps.v
theories/ReparamAddProps.v
theories/UtilTools.v
theories/UtilFacts.v
theories/UtilProps.v
theories/PyhfConvert.v
theories/PyhfFacts.v
theories/PyhfProps.v
theories/PyhfDataProps.v
theories/PoiObjProps.v
theories/ScanMoreProps.v
theories/ToolsMoreProps.v
theories/CoreMore.v
theories/CoreMoreProps.v
theories/FileIO.v
theories/FileIOProps.v
theories/LimitTools.v
theories/LimitToolsProps.v
theories/LimitOptProps.v
theories/UtilListProps.v
theories/LimitMoreProps.v
theories/RemoveExprProps.v
theories/PdfProps.v
theories/ConvertWs.v
theories/ConvertWsFacts.v
theories/ConvertWsSpec.v
theories/ConvertWsProps.v
theories/ConvertPackProps.v
theories/ConvertLoadProps.v
theories/ConvertBins.v
theories/ConvertBinsProps.v
theories/ExactProps.v
theories/Commands.v
theories/CommandFacts.v
theories/CommandProps.v
theories/CommandMergeProps.v
theories/CommandChannelProps.v
theories/CommandReparamProps.v
theories/ScanCommand.v
theories/ScanFacts.v
theories/ScanCommandProps.v
theories/ScanCommandExProps.v
theories/SamplesRun.v
theories/SamplesRunProps.v
theories/LimitCommand.v
theories/LimitFacts.v
theories/LimitCommandProps.v
theories/LimitCommandExProps.v
theories/ScanCommandOptProps.v
theories/LimitToysProps.v
theories/LimitToysExProps.v
theories/LimitCommandOptProps.v
theories/LimitsRun.v
theories/LimitsRunProps.v
theories/LimitsResultProps.v
theories/LimitsRunExProps.v
theories/Impacts.v
theories/ImpactProps.v
theories/ImpactExProps.v
theories/FitCommand.v
theories/FitCommandProps.v
theories/FitCommandExProps.v
theories/CheckCommand.v
theories/CheckCommandProps.v
theories/CheckCommandExProps.v
theories/Snapshot.v
theories/SnapshotProps.v
