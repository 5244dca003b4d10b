-Q theories Verif
theories/Prelude.v
theories/ListFacts.v
theories/UtilsModel.v
theories/UtilsSpec.v
theories/UtilsProofs.v
theories/UtilsProps.v
theories/NumQ.v
theories/ParetoModel.v
theories/ParetoSpec.v
theories/ParetoProofs.v
theories/ParetoProps.v
theories/CostModel.v
theories/CostSpec.v
theories/CostProofs.v
theories/CostProps.v
theories/HullModel.v
theories/SumQ.v
theories/HullSpec.v
theories/CatalanProofs.v
theories/HullDecompProofs.v
theories/HullChainProofs.v
theories/HullEnergyProofs.v
theories/HullCompetitionProofs.v
theories/HullSignProofs.v
theories/HullCheck.v
theories/HullProps.v
theories/ReactionModel.v
theories/ReactionSpec.v
theories/ReactionBaseProofs.v
theories/ReactionBalanceProofs.v
theories/ReactionOpsProofs.v
theories/ReactionLawProofs.v
theories/ReactionEqProofs.v
theories/ReactionDataModel.v
theories/ReactionDataProofs.v
theories/ChemTable.v
theories/ReactionCheck.v
theories/ReactionProps.v
theories/RxnSetModel.v
theories/RxnSetSpec.v
theories/RxnSetBaseProofs.v
theories/RxnSetProofs.v
theories/RxnSetKeepProofs.v
theories/RxnSetRowProofs.v
theories/RxnSetDupProofs.v
theories/RxnSetFilterProofs.v
theories/RxnSetParProofs.v
theories/RxnSetTempProofs.v
theories/RxnSetCheck.v
theories/RxnSetProps.v
theories/EnumModel.v
theories/EnumSpec.v
theories/EnumProofs.v
theories/EnumReactProofs.v
theories/EnumLinkModel.v
theories/EnumLinkProofs.v
theories/RunModel.v
theories/RunProofs.v
theories/EnumRealProofs.v
theories/EnumCheck.v
theories/EnumProps.v
theories/NetModel.v
theories/YenModel.v
theories/NetProofs.v
theories/NetHistoryProofs.v
theories/YenSpec.v
theories/NetSpec.v
theories/YenProofs.v
theories/YenOptProofs.v
theories/ShortestPath.v
theories/NetPathProofs.v
theories/NetCheck.v
theories/NetProps.v
theories/PathModel.v
theories/PathSpec.v
theories/PathProofs.v
theories/PathCheck.v
theories/PathProps.v
theories/SolverModel.v
theories/SolverSpec.v
theories/SolverProofs.v
theories/SolverTopProofs.v
theories/SolverSolveProofs.v
theories/SolverMoreProofs.v
theories/SolverFinalProofs.v
theories/SolverInterProofs.v
theories/SolverEndProofs.v
theories/SolverCheck.v
theories/SolverProps.v
theories/GibbsModel.v
theories/GibbsSpec.v
theories/GibbsProofs.v
theories/GibbsMassProofs.v
theories/GibbsEntryProofs.v
theories/GibbsMoreProofs.v
theories/GibbsCheck.v
theories/GibbsProps.v
theories/EntrySetModel.v
theories/EntrySetSpec.v
theories/EntrySetProofs.v
theories/EntryFilterProofs.v
theories/EntryAdjustProofs.v
theories/FromPdProofs.v
theories/EntryBuildModel.v
theories/ProcessProofs.v
theories/EntrySetCheck.v
theories/EntrySetProps.v
theories/EntryDbModel.v
theories/EntryDbSpec.v
theories/EntryDbProofs.v
theories/EntryDbProps.v
theories/JobsModel.v
theories/JobsSpec.v
theories/JobsProofs.v
theories/JobsCheck.v
theories/JobsProps.v
theories/CpdModel.v
theories/CpdSpec.v
theories/CpdProofs.v
theories/CpdCheck.v
theories/CpdProps.v
theories/InitModel.v
theories/InitSpec.v
theories/InitProofs.v
theories/InitCheck.v
theories/InitProps.v
theories/StrModel.v
theories/StrNumProofs.v
theories/StrSpec.v
theories/StrProofs.v
theories/StrSameProofs.v
theories/StrCheck.v
theories/StrProps.v
theories/MinModel.v
theories/MinSpec.v
theories/MinProofs.v
theories/MinCheck.v
theories/MinProps.v
theories/TempModel.v
theories/RxnMoreSpec.v
theories/RxnMoreProofs.v
theories/RxnMoreCheck.v
theories/RxnMoreProps.v
theories/DiagModel.v
theories/DiagSpec.v
theories/DiagProofs.v
theories/DiagCheck.v
theories/DiagProps.v
theories/OffsetModel.v
theories/OffsetSpec.v
theories/OffsetProofs.v
theories/FrameModel.v
theories/FrameSpec.v
theories/FrameProofs.v
theories/FrameCheck.v
theories/FrameProps.v
theories/UncertModel.v
theories/UncertSpec.v
theories/UncertProofs.v
theories/UncertCheck.v
theories/UncertProps.v
theories/RouteSpec.v
theories/RouteProofs.v
theories/FlowModel.v
theories/FlowSpec.v
theories/FlowProofs.v
theories/FlowProps.v
theories/NetJobModel.v
theories/NetJobSpec.v
theories/NetJobProofs.v
theories/NetJobCheck.v
theories/NetJobProps.v
theories/SolveJobModel.v
theories/SolveJobSpec.v
theories/SolveJobProofs.v
theories/SolveJobCheck.v
theories/SolveJobProps.v
theories/PlotModel.v
theories/PlotSpec.v
theories/PlotProofs.v
theories/PlotCheck.v
theories/PlotProps.v
theories/MetaModel.v
theories/MetaSpec.v
theories/MetaProofs.v
theories/MetaCheck.v
theories/MetaProps.v
theories/IrhModel.v
theories/IrhSpec.v
theories/IrhProofs.v
theories/IrhCheck.v
theories/IrhProps.v
theories/LoadModel.v
theories/LoadSpec.v
theories/LoadProofs.v
theories/LoadCheck.v
theories/LoadProps.v
theories/UidModel.v
theories/UidSpec.v
theories/UidProofs.v
theories/UidCheck.v
theories/UidProps.v
theories/StoreModel.v
theories/StoreSpec.v
theories/StoreProofs.v
theories/StoreCheck.v
theories/StoreProps.v
theories/MuModel.v
theories/MuSpec.v
theories/MuProofs.v
theories/MuCheck.v
theories/MuProps.v
theories/CompModel.v
theories/CompSpec.v
theories/CompProofs.v
theories/CompCheck.v
theories/CompProps.v
theories/LinModel.v
theories/LinSpec.v
theories/LinProofs.v
theories/LinCheck.v
theories/LinProps.v
theories/LinBalanceProofs.v
theories/PinvModel.v
theories/PinvProofs.v
theories/PinvCheck.v
theories/PinvProps.v
theories/AreaModel.v
theories/AreaSpec.v
theories/AreaProofs.v
theories/AreaCheck.v
theories/AreaProps.v
theories/CapSpec.v
theories/CapProofs.v
theories/CapCheck.v
theories/CapProps.v
theories/EnumOrderProofs.v
theories/GibbsValueProofs.v
theories/StabilizeProofs.v
theories/MuConcaveProofs.v
theories/CritModel.v
theories/CritSpec.v
theories/CritProofs.v
theories/CritCheck.v
theories/CritProps.v
theories/OpenStoreModel.v
theories/OpenStoreSpec.v
theories/OpenStoreProofs.v
theories/OpenStoreCheck.v
theories/OpenStoreProps.v
theories/ChainModel.v
theories/ChainSpec.v
theories/ChainProofs.v
theories/ChainCheck.v
theories/ChainProps.v
theories/RawModel.v
theories/RawSpec.v
theories/RawProofs.v
theories/RawProps.v
theories/RawCheck.v
theories/FetchModel.v
theories/FetchSpec.v
theories/FetchProofs.v
theories/FetchCheck.v
theories/FetchProps.v
theories/DomModel.v
theories/DomSpec.v
theories/DomProofs.v
theories/DomProps.v
theories/JoinModel.v
theories/JoinSpec.v
theories/JoinProofs.v
theories/JoinCheck.v
theories/JoinProps.v
theories/ChainFindSpec.v
theories/ChainFindProofs.v
theories/ChainFindCheck.v
theories/ChainFindProps.v
theories/WholeModel.v
theories/WholeProofs.v
theories/WholeCheck.v
theories/WholeProps.v
theories/NistTableModel.v
theories/FreedTableModel.v
theories/ExpTableModel.v
theories/ExpTableSpec.v
theories/ExpTableProofs.v
theories/ExpTableCheck.v
theories/ExpTableProps.v
theories/IntModel.v
theories/IntSpec.v
theories/IntProofs.v
theories/IntCheck.v
theories/IntProps.v
theories/IntFlowSpec.v
theories/IntFlowProofs.v
theories/IntFlowCheck.v
theories/IntFlowProps.v
theories/JoinOpenProofs.v
theories/JoinOpenCheck.v
theories/JoinOpenProps.v
theories/JoinOpenSpec.v
theories/HullPlotModel.v
theories/HullPlotSpec.v
theories/HullPlotProofs.v
theories/HullPlotCheck.v
theories/HullPlotProps.v
theories/VisModel.v
theories/VisSpec.v
theories/VisProofs.v
theories/VisProps.v
theories/MinJoinModel.v
theories/MinJoinSpec.v
theories/MinJoinProofs.v
theories/MinJoinCheck.v
theories/MinJoinProps.v
theories/CalcModel.v
theories/CalcSpec.v
theories/CalcProofs.v
theories/CalcCheck.v
theories/CalcProps.v
theories/IdentSpec.v
theories/IdentProofs.v
theories/IdentProps.v
theories/FreeSpec.v
theories/FreeProofs.v
theories/CoefProofs.v
theories/FreeJoinProofs.v
theories/FreeCheck.v
theories/FreeProps.v
theories/RoundModel.v
theories/RoundSpec.v
theories/RoundProofs.v
theories/RoundCheck.v
theories/RoundProps.v
theories/StrTextProofs.v
theories/YenQueueProofs.v
theories/IntMinModel.v
theories/IntMinSpec.v
theories/IntMinProofs.v
theories/IntMinCheck.v
theories/IntMinProps.v
theories/RoundPathModel.v
theories/RoundPathSpec.v
theories/RoundPathProofs.v
theories/RoundPathCheck.v
theories/RoundPathProps.v
theories/AnyWholeModel.v
theories/AnyWholeSpec.v
theories/AnyWholeProofs.v
theories/AnyWholeCheck.v
theories/AnyWholeProps.v
theories/IntOpenModel.v
theories/IntOpenSpec.v
theories/IntOpenProofs.v
theories/IntOpenCheck.v
theories/IntOpenProps.v
theories/OpenWholeModel.v
theories/OpenWholeSpec.v
theories/OpenWholeProofs.v
theories/OpenWholeCheck.v
theories/OpenWholeProps.v
theories/GrandJoinModel.v
theories/GrandJoinSpec.v
theories/GrandJoinProofs.v
theories/GrandWholeProofs.v
theories/GrandWholeCheck.v
theories/GrandWholeProps.v
theories/ErrorsProofs.v
theories/ErrorsProps.v
theories/NormModel.v
theories/NormSpec.v
theories/NormProofs.v
theories/NormCheck.v
theories/NormProps.v
theories/DataSpec.v
theories/DataProofs.v
theories/DataCheck.v
theories/DataProps.v
theories/EnumAnySpec.v
theories/EnumAnyProofs.v
theories/EnumAnyProps.v
theories/EnumAnyCheck.v
theories/MinAnySpec.v
theories/MinAnyProofs.v
theories/MinAnyProps.v
theories/MinAnyCheck.v
theories/FreeAnyProofs.v
theories/FreeAnyProps.v
theories/OpenAnySpec.v
theories/OpenAnyProofs.v
theories/OpenAnyProps.v
theories/HullErrorsProofs.v
theories/HullErrorsProps.v
theories/NetErrorsProofs.v
theories/NetErrorsProps.v
theories/JobErrorsProofs.v
theories/JobErrorsProps.v
theories/JobSizeProofs.v
theories/JobSizeProps.v
