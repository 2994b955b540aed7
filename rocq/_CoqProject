-Q theories Verif
theories/Py.v
theories/Json.v
theories/ActiveSiteModel.v
theories/EventModel.v
theories/PyLemmas.v
theories/EventSpec.v
theories/EventProofs.v
theories/EventProps.v
theories/ActiveSiteSpec.v
theories/ActiveSiteProofs.v
theories/StateModel.v
theories/HopModel.v
theories/KmcModel.v
theories/StateProofs.v
theories/ActiveSiteProps.v
theories/HopSpec.v
theories/HopProofs.v
theories/HopProps.v
theories/KmcSpec.v
theories/KmcProofs.v
theories/ProposeModel.v
theories/ProposeSpec.v
theories/ProposeProofs.v
theories/FloatModel.v
theories/FloatSpec.v
theories/FloatProofs.v
theories/ProposeProps.v
theories/EngineProofs.v
theories/LceModel.v
theories/LceSpec.v
theories/CompositeModel.v
theories/LceProofs.v
theories/CompositeSpec.v
theories/CompositeProofs.v
theories/LceProps.v
theories/CompositeProps.v
theories/TrackerModel.v
theories/TrackerSpec.v
theories/TrackerProofs.v
theories/TrackerProps.v
theories/PropertyModel.v
theories/PropertySpec.v
theories/PropertyProofs.v
theories/PropertyProps.v
theories/TransportModel.v
theories/TransportSpec.v
theories/TransportProofs.v
theories/TransportProps.v
theories/RunModel.v
theories/RunProofs.v
theories/RunProps.v
theories/TrajectoryModel.v
theories/TrajectorySpec.v
theories/TrajectoryProofs.v
theories/TrajectoryProps.v
theories/SiteEnergyModel.v
theories/SiteEnergySpec.v
theories/SiteEnergyProofs.v
theories/SiteEnergyProps.v
theories/KmcProps.v
theories/LocalBarrierModel.v
theories/LocalBarrierSpec.v
theories/LocalBarrierProofs.v
theories/LocalBarrierProps.v
theories/RuleTableSpec.v
theories/RuleTableProofs.v
theories/RuleTableProps.v
theories/BasisModel.v
theories/BasisSpec.v
theories/BasisProofs.v
theories/BasisProps.v
theories/LatticeModel.v
theories/LatticeSpec.v
theories/LatticeProofs.v
theories/LatticeProps.v
theories/MatcherModel.v
theories/MatcherSpec.v
theories/MatcherProofs.v
theories/MatcherProps.v
theories/EnumModel.v
theories/EnumSpec.v
theories/EnumProofs.v
theories/EnumProps.v
theories/EnumTransformModel.v
theories/EnumTransformSpec.v
theories/EnumTransformProofs.v
theories/EnumTransformProps.v
theories/GeneratorModel.v
theories/GeneratorSpec.v
theories/GeneratorProofs.v
theories/GeneratorProps.v
theories/BuildModel.v
theories/BuildSpec.v
theories/BuildProofs.v
theories/BuildProps.v
theories/ConfigModel.v
theories/ConfigSpec.v
theories/ConfigProofs.v
theories/ConfigProps.v
theories/LocalEnvModel.v
theories/LocalEnvSpec.v
theories/LocalEnvProofs.v
theories/LocalEnvSearch.v
theories/LocalEnvProps.v
theories/LceFileModel.v
theories/LceFileSpec.v
theories/LceFileProofs.v
theories/LceFileProps.v
theories/FitModel.v
theories/FitSpec.v
theories/FitProofs.v
theories/FitProps.v
theories/ParamModel.v
theories/ParamSpec.v
theories/ParamProofs.v
theories/ParamProps.v
theories/FitFilesModel.v
theories/FitFilesSpec.v
theories/FitFilesProofs.v
theories/FitFilesProps.v
theories/SiteFileModel.v
theories/SiteFileSpec.v
theories/SiteFileProofs.v
theories/SiteFileProps.v
theories/DispatchModel.v
theories/DispatchSpec.v
theories/DispatchProofs.v
theories/DispatchProps.v
theories/InitModel.v
theories/InitSpec.v
theories/InitProofs.v
theories/InitProps.v
theories/GuiModel.v
theories/GuiSpec.v
theories/GuiProofs.v
theories/GuiProps.v
theories/NebModel.v
theories/NebSpec.v
theories/NebProofs.v
theories/NebProps.v
theories/ResultsModel.v
theories/ResultsSpec.v
theories/ResultsProofs.v
theories/ResultsProps.v
theories/CifModel.v
theories/CifSpec.v
theories/CifProofs.v
theories/CifProps.v
theories/NeighborsModel.v
theories/NeighborsSpec.v
theories/NeighborsProofs.v
theories/NeighborsProps.v
theories/CallbackModel.v
theories/CallbackSpec.v
theories/CallbackProofs.v
theories/CallbackProps.v
theories/GatherModel.v
theories/GatherSpec.v
theories/GatherProofs.v
theories/GatherProps.v
theories/KineticsSpec.v
theories/KineticsProofs.v
theories/KineticsProps.v
theories/GenKineticsProofs.v
theories/GenKineticsProps.v
theories/SharedModel.v
theories/SharedSpec.v
theories/SharedProofs.v
theories/SharedCase.v
theories/SharedProps.v
theories/SiteObjectModel.v
theories/SiteObjectSpec.v
theories/SiteObjectProofs.v
theories/SiteObjectProps.v
theories/ListingModel.v
theories/ListingSpec.v
theories/ListingProofs.v
theories/ListingProps.v
theories/RandomOccModel.v
theories/RandomOccSpec.v
theories/RandomOccProofs.v
theories/RandomOccProps.v
theories/OptionModel.v
theories/OptionSpec.v
theories/OptionProofs.v
theories/OptionProps.v
theories/ReportModel.v
theories/ReportProofs.v
theories/ReportProps.v
