-Q theories Verif
theories/PyBase.v
theories/PyBaseProofs.v
theories/ExprModel.v
theories/ExprSpec.v
theories/ScanProofs.v
theories/InterpProofs.v
theories/EvalModel.v
theories/EvalSpec.v
theories/EvalProofs.v
theories/GrammarProofs.v
theories/ExprProps.v
theories/FormatModel.v
theories/FormatSpec.v
theories/FormatProofs.v
theories/FormatProps.v
theories/UtilsModel.v
theories/UtilsSpec.v
theories/UtilsProofs.v
theories/UtilsProps.v
theories/SchemaModel.v
theories/SchemaSpec.v
theories/SchemaProofs.v
theories/SchemaProps.v
theories/JsonSpec.v
theories/JsonProofs.v
theories/JsonProofs2.v
theories/JsonProofs3.v
theories/JsonProps.v
theories/TypeModel.v
theories/TypeSpec.v
theories/TypeProofs.v
theories/TypeProofs2.v
theories/LinkProofs.v
theories/NameProofs.v
theories/TypeProps.v
theories/CheckerSpec.v
theories/CheckerProofs.v
theories/CheckerProps.v
theories/PackModel.v
theories/PackSpec.v
theories/PackProofs.v
theories/PackTreeProofs.v
theories/PackStepProofs.v
theories/PackNameProofs.v
theories/PackProps.v
theories/GraphModel.v
theories/GraphSpec.v
theories/GraphProofs.v
theories/GraphTypeProofs.v
theories/GraphProps.v
theories/ImageModel.v
theories/ImageSpec.v
theories/ImageProofs.v
theories/EngineProofs.v
theories/ImageProps.v
theories/PullProps.v
theories/ParserModel.v
theories/ParserSpec.v
theories/ParserProofs.v
theories/Utf8.v
theories/ParserProps.v
theories/LoaderModel.v
theories/LoaderSpec.v
theories/LoaderProofs.v
theories/ShorthandProofs.v
theories/LoaderProps.v
theories/AddressSpec.v
theories/AddressProofs.v
theories/AddressProps.v
theories/CwlTablesV1_0.v
theories/CwlTablesV1_1.v
theories/CwlTablesV1_2.v
theories/VersionModel.v
theories/VersionSpec.v
theories/VersionProofs.v
theories/RefusalProofs.v
theories/VersionProps.v
theories/NodeModel.v
theories/NodeSpec.v
theories/NodeProofs.v
theories/NodeRuns.v
theories/NodeProps.v
theories/StartModel.v
theories/StartSpec.v
theories/StartProofs.v
theories/StartProps.v
theories/RefactorModel.v
theories/RefactorSpec.v
theories/RefactorProofs.v
theories/RefactorProps.v
theories/FlowModel.v
theories/FlowSpec.v
theories/FlowProofs.v
theories/FlowProofs2.v
theories/FlowProofs3.v
theories/FlowProps.v
theories/FlowTrace.v
theories/FlowValueSpec.v
theories/FlowValueProofs.v
theories/FlowValueProps.v
theories/FlowTargetProps.v
theories/FlowReqSpec.v
theories/FlowReqProofs.v
theories/FlowReqProofs2.v
theories/FlowReqProps.v
theories/FlowToolSpec.v
theories/FlowToolProofs.v
theories/FlowToolProofs2.v
theories/FlowToolProofs3.v
theories/FlowToolProps.v
theories/FlowEvalSpec.v
theories/FlowEvalProofs.v
theories/FlowEvalProps.v
theories/FlowNameSpec.v
theories/FlowNameProofs.v
theories/FlowNameProofs2.v
theories/FlowNameProps.v
theories/MeaningSpec.v
theories/MeaningProofs.v
theories/MeaningProofs2.v
theories/MeaningProps.v
theories/EndProofs.v
theories/EndProps.v
theories/SaveModel.v
theories/SaveSpec.v
theories/SaveProofs.v
theories/SaveProofs2.v
theories/SaveProofs3.v
theories/SaveProps.v
theories/InputModel.v
theories/InputSpec.v
theories/InputProofs.v
theories/InputProps.v
theories/NormalModel.v
theories/NormalSpec.v
theories/NormalProofs.v
theories/NormalProps.v
theories/AgainSpec.v
theories/AgainProofs.v
theories/AgainProps.v
theories/CommandModel.v
theories/CommandSpec.v
theories/CommandProps.v
theories/IndexModel.v
theories/IndexSpec.v
theories/IndexProofs.v
theories/IndexAlone.v
theories/IndexProps.v
theories/TraverseModel.v
theories/TraverseSpec.v
theories/TraverseProps.v
theories/SameSpec.v
theories/SameProofs.v
theories/SameProps.v
theories/LibSpec.v
theories/LibProofs.v
theories/LibProps.v
theories/PickSpec.v
theories/PickProofs.v
theories/PickProps.v
theories/ShortModel.v
theories/SaveTables.v
theories/ShortSpec.v
theories/ShortProofs.v
theories/ShortProofs2.v
theories/ShortProofs3.v
theories/ShortProps.v
theories/TripModel.v
theories/TripSpec.v
theories/TripProps.v
theories/FlowOldModel.v
theories/FlowOldSpec.v
theories/FlowOldProofs.v
theories/FlowOldProofs2.v
theories/FlowOldProps.v
theories/FlowTwiceSpec.v
theories/FlowTwiceProofs.v
theories/FlowTwiceProofs2.v
theories/FlowTwiceProofs3.v
theories/FlowTwiceProps.v
theories/FlowMoreProps.v
theories/OutLibProps.v
theories/ExampleProps.v
