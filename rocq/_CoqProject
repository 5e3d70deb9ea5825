-Q theories Verif
theories/Base.v
theories/ParseModel.v
theories/ParseSpec.v
theories/ParseProofs.v
theories/ShapeProofs.v
theories/ShapeProofs2.v
theories/ShapeProofs3.v
theories/SectionSpec.v
theories/SectionProofs.v
theories/OptionProofs.v
theories/ParseProps.v
theories/ConfigModel.v
theories/ConfigSpec.v
theories/ConfigProofs.v
theories/ConfigProofs2.v
theories/ConfigProps.v
theories/DirsModel.v
theories/DirsSpec.v
theories/DirsProofs.v
theories/DirsProofs2.v
theories/DirsProps.v
theories/Num.v
theories/SurfaceModel.v
theories/StrataModel.v
theories/SurfaceSpec.v
theories/OrderSpec.v
theories/SurfaceProofs.v
theories/SurfaceProps.v
theories/StrataSpec.v
theories/StrataProofs.v
theories/StrataProofs2.v
theories/StrataProofs3.v
theories/StrataProps.v
theories/AssignModel.v
theories/AssignSpec.v
theories/AssignProofs.v
theories/AssignProofs2.v
theories/BuildModel.v
theories/BuildSpec.v
theories/BuildProofs.v
theories/BuildProofs2.v
theories/AssignProps.v
theories/AssignProps2.v
theories/FaciesModel.v
theories/FaciesSpec.v
theories/FaciesProofs.v
theories/FaciesProps.v
theories/TroughModel.v
theories/TroughSpec.v
theories/TroughProofs.v
theories/TroughProofs2.v
theories/TroughProofs3.v
theories/TroughProps.v
theories/TroughBuildSpec.v
theories/TroughBuild.v
theories/TroughExamples.v
theories/SheetModel.v
theories/SheetSpec.v
theories/SheetProps.v
theories/ChannelModel.v
theories/ChannelSpec.v
theories/ChannelProofs.v
theories/ChannelProps.v
theories/ChannelProps2.v
theories/ArrayModel.v
theories/TensorModel.v
theories/TensorSpec.v
theories/ArrayProofs.v
theories/TensorProps.v
theories/BeddingProps.v
theories/SpecsimModel.v
theories/SpecsimSpec.v
theories/SpecsimProofs.v
theories/SpecsimProps.v
theories/HydraulicsModel.v
theories/HydraulicsSpec.v
theories/HydraulicsProofs.v
theories/HydraulicsProps.v
theories/HydraulicsProps2.v
theories/HydraulicsProps3.v
theories/CurveModel.v
theories/CurveSpec.v
theories/CurveProofs.v
theories/CurveProps.v
theories/OutputModel.v
theories/OutputSpec.v
theories/OutputProps.v
theories/OutputProps2.v
theories/DeprecatedModel.v
theories/IniModel.v
theories/IniSpec.v
theories/IniProofs.v
theories/IniProps.v
theories/WarnModel.v
theories/WarnSpec.v
theories/DeprecatedSpec.v
theories/DeprecatedProofs.v
theories/DeprecatedProps.v
theories/RunModel.v
theories/RunProofs.v
theories/RunProps.v
theories/FullModel.v
theories/FullSpec.v
theories/FullProofs.v
theories/FullProofs2.v
theories/FullProofs3.v
theories/FullProofs4.v
theories/FullProofs5.v
theories/FullProofs6.v
theories/FullProps.v
theories/LinkModel.v
theories/LinkSpec.v
theories/LinkProofs.v
theories/LinkProps.v
theories/LinkExamples.v
theories/HydroLinkModel.v
theories/HydroLinkProofs.v
theories/HydroLinkProps.v
theories/SizeSpec.v
theories/SizeProofs.v
theories/SizeProps.v
theories/SizeExamples.v
theories/FloatModel.v
theories/FloatProofs.v
theories/FloatProps.v
theories/RepoTests.v
theories/PlotModel.v
theories/PlotSpec.v
theories/PlotProps.v
theories/ChoiceModel.v
theories/ChoiceSpec.v
theories/ChoiceProofs.v
theories/ChoiceProps.v
theories/ChoiceExamples.v
theories/MigrateProps.v
theories/NoiseModel.v
theories/NoiseProps.v
theories/AngleSpec.v
theories/AngleProps.v
theories/AngleExamples.v
theories/WarnProps.v
theories/PlaceSpec.v
theories/PlaceProps.v
theories/PlaceExamples.v
theories/BackupModel.v
theories/BackupProofs.v
theories/BackupProps.v
theories/HgsModel.v
theories/HgsSpec.v
theories/HgsProofs.v
theories/HgsProps.v
theories/SimModel.v
theories/SimSpec.v
theories/SimProofs.v
theories/SimProofs2.v
theories/SimProps.v
theories/DefaultsSpec.v
theories/DefaultsProps.v
theories/FieldsModel.v
theories/FieldsProps.v
theories/OrderModel.v
theories/OrderProps.v
theories/InternalSpec.v
theories/InternalProofs.v
theories/InternalProps.v
theories/CovSpec.v
theories/CovProofs.v
theories/CovProps.v
theories/ThickSpec.v
theories/ThickProps.v
theories/SheetFloatSpec.v
theories/SheetFloatProofs.v
theories/SheetFloatProps.v
theories/NamesSpec.v
theories/NamesProps.v
theories/NumberModel.v
theories/MadeIni.v
theories/TestCaseModel.v
theories/TestCaseSpec.v
theories/TestCaseProofs.v
theories/TestCaseProps.v
theories/OldSpec.v
theories/OldProps.v
theories/ParseProps2.v
theories/NumberProps.v
theories/DirsProps2.v
theories/StrataProps2.v
theories/OverlapSpec.v
theories/OverlapProps.v
theories/OverlapExamples.v
theories/OverlapTroughs.v
theories/OverlapExamples2.v
theories/TestCaseProps2.v
theories/NumberSpec.v
theories/NumberProps2.v
theories/OriginSpec.v
theories/OriginProofs.v
theories/OriginProps.v
theories/OverlapExamples3.v
theories/RefineSpec.v
theories/RefineProofs.v
theories/RefineProps.v
theories/AboveSpec.v
theories/AboveProofs.v
theories/AboveProps.v
theories/ReferSpec.v
theories/ReferProofs.v
theories/ReferProps.v
theories/InheritSpec.v
theories/InheritProofs.v
theories/InheritProps.v
theories/UnitSpec.v
theories/UnitProofs.v
theories/UnitProofs2.v
theories/UnitProps.v
theories/UnitProps2.v
theories/FileOrderSpec.v
theories/FileOrderProofs.v
theories/FileOrderProofs2.v
theories/FileOrderProps.v
theories/FileOrderProofs3.v
theories/FileOrderProps2.v
theories/UnusedSpec.v
theories/UnusedProofs.v
theories/UnusedProps.v
theories/TrendProps.v
