-Q theories Verif
theories/Outcome.v
theories/Machine.v
theories/ListSpec.v
theories/TypeListModel.v
theories/TypeListProofs.v
theories/TypeListView.v
theories/TypeListMoreProofs.v
theories/TypeListProps.v
theories/RefsModel.v
theories/RefsView.v
theories/RefsProofs.v
theories/RefsProps.v
theories/BitsModel.v
theories/BitsSpec.v
theories/BitsProofs.v
theories/BitsProps.v
theories/ArithModel.v
theories/ArithSpec.v
theories/ArithProofs.v
theories/ArithModeProofs.v
theories/ArithRangeProofs.v
theories/DivProofs.v
theories/DivModeProofs.v
theories/ArithProps.v
theories/MemModel.v
theories/MemSpec.v
theories/MemProofs.v
theories/MemEdgeProofs.v
theories/MemProps.v
theories/SimpleSpec.v
theories/SimpleModel.v
theories/SimpleView.v
theories/SimpleProofs.v
theories/SimpleAllocProofs.v
theories/SimpleScanProofs.v
theories/SimpleOpProofs.v
theories/SimpleHistProofs.v
theories/SimpleReleaseProofs.v
theories/SimpleAnyProofs.v
theories/SimpleMainProofs.v
theories/SimpleExactProofs.v
theories/SimpleAstrayProofs.v
theories/SimpleWalkProofs.v
theories/SimpleFreeProofs.v
theories/SimpleKeepProofs.v
theories/SimpleSweepSpec.v
theories/SimpleSweepProofs.v
theories/SimpleBalanceProofs.v
theories/SimplePinnedProofs.v
theories/SimpleFillProofs.v
theories/SimpleRefuted.v
theories/SimpleExamples.v
theories/SimpleProps.v
theories/MonoSpec.v
theories/MonoModel.v
theories/MonoProofs.v
theories/MonoExactProofs.v
theories/MonoProps.v
theories/AllocSpec.v
theories/AllocModel.v
theories/AllocView.v
theories/AllocProofs.v
theories/AllocStackProofs.v
theories/AllocObjProofs.v
theories/AllocExamples.v
theories/AllocProps.v
theories/ForwardSpec.v
theories/ForwardModel.v
theories/ForwardProofs.v
theories/ForwardProps.v
theories/TimerSpec.v
theories/TimerModel.v
theories/TimerProofs.v
theories/TimerProps.v
theories/RelocateSpec.v
theories/RelocateProofs.v
theories/RelocateProps.v
theories/PimplSpec.v
theories/PimplModel.v
theories/PimplProofs.v
theories/PimplProps.v
theories/AbortModel.v
theories/AbortProofs.v
theories/AbortProps.v
theories/TraitsSpec.v
theories/TraitsModel.v
theories/TraitsProofs.v
theories/TraitsProps.v
theories/PaddingSpec.v
theories/PaddingModel.v
theories/PaddingProofs.v
theories/PaddingProps.v
theories/CheckersSpec.v
theories/CheckersModel.v
theories/CheckersProofs.v
theories/CheckersProps.v
theories/NamesSpec.v
theories/NamesModel.v
theories/NamesProofs.v
theories/NamesProps.v
theories/CommonSpec.v
theories/CommonModel.v
theories/CommonProofs.v
theories/CommonProps.v
theories/DefaultSpec.v
theories/DefaultModel.v
theories/DefaultProofs.v
theories/DefaultProps.v
theories/AcceptSpec.v
theories/AcceptModel.v
theories/AcceptProofs.v
theories/AcceptProps.v
theories/PreProofs.v
theories/PreProps.v
theories/WorldSpec.v
theories/WorldModel.v
theories/WorldView.v
theories/WorldProofs.v
theories/WorldProps.v
theories/BuildSpec.v
theories/BuildKeepSpec.v
theories/BuildProofs.v
theories/BuildKeepProofs.v
theories/BuildProps.v
theories/MessageSpec.v
theories/MessageModel.v
theories/MessageProofs.v
theories/MessageProps.v
theories/SimpleTests.v
theories/UtilsTests.v
theories/ListTests.v
theories/TraitsTests.v
theories/ExitSpec.v
theories/ExitModel.v
theories/ExitProofs.v
theories/ExitProps.v
theories/StrictSpec.v
theories/StrictModel.v
theories/StrictProofs.v
theories/StrictProps.v
theories/ValidSpec.v
theories/ValidModel.v
theories/ValidProofs.v
theories/ValidProps.v
theories/ThrowSpec.v
theories/ThrowModel.v
theories/ThrowProofs.v
theories/ThrowProps.v
theories/UnitsSpec.v
theories/UnitsModel.v
theories/UnitsProofs.v
theories/UnitsProps.v
theories/ElementsSpec.v
theories/ElementsModel.v
theories/ElementsProofs.v
theories/ElementsProps.v
theories/ThreadsSpec.v
theories/ThreadsModel.v
theories/ThreadsProofs.v
theories/ThreadsProps.v
theories/OffersSpec.v
theories/OffersModel.v
theories/OffersProofs.v
theories/OffersProps.v
theories/IncludeSpec.v
theories/IncludeModel.v
theories/IncludeProofs.v
theories/IncludeProps.v
theories/WordSpec.v
theories/WordModel.v
theories/WordProofs.v
theories/WordProps.v
theories/PublishSpec.v
theories/PublishModel.v
theories/PublishProofs.v
theories/PublishProps.v
theories/DepthSpec.v
theories/DepthModel.v
theories/DepthProofs.v
theories/DepthProps.v
theories/CostSpec.v
theories/CostProofs.v
theories/CostProps.v
theories/WidthSpec.v
theories/WidthModel.v
theories/WidthProofs.v
theories/WidthKeepProofs.v
theories/WidthProps.v
theories/SmallTests.v
theories/WipeSpec.v
theories/WipeModel.v
theories/WipeProofs.v
theories/WipeProps.v
theories/HeapSpec.v
theories/HeapModel.v
theories/HeapProofs.v
theories/HeapProps.v
theories/NestSpec.v
theories/NestModel.v
theories/NestProofs.v
theories/NestProps.v
theories/ContainSpec.v
theories/ContainModel.v
theories/ContainProofs.v
theories/ContainProps.v
theories/VisitSpec.v
theories/VisitModel.v
theories/VisitProofs.v
theories/VisitProps.v
theories/PartialSpec.v
theories/PartialModel.v
theories/PartialProofs.v
theories/PartialProps.v
theories/ScanSpec.v
theories/ScanModel.v
theories/ScanProofs.v
theories/ScanProps.v
theories/PastProofs.v
theories/PastRefuted.v
theories/PastProps.v
theories/GrowSpec.v
theories/GrowProofs.v
theories/GrowProps.v
theories/LawsProofs.v
theories/LawsProps.v
theories/IdleSpec.v
theories/IdleProofs.v
theories/IdleProps.v
theories/RoomSpec.v
theories/RoomProofs.v
theories/RoomProps.v
theories/FitProofs.v
theories/FitProps.v
theories/StoreProofs.v
theories/StoreProps.v
theories/SumsProofs.v
theories/SumsProps.v
theories/ShelfSpec.v
theories/ShelfProofs.v
theories/ShelfProps.v
theories/BackProofs.v
theories/BackProps.v
theories/ShiftSpec.v
theories/ShiftProofs.v
theories/ShiftProps.v
theories/LimitProofs.v
theories/LimitProps.v
theories/LoneSpec.v
theories/LoneProofs.v
theories/LoneProps.v
theories/RoundSpec.v
theories/RoundProofs.v
theories/RoundProps.v
theories/ChainSpec.v
theories/ChainModel.v
theories/ChainView.v
theories/ChainProofs.v
theories/ChainProps.v
theories/FallSpec.v
theories/FallModel.v
theories/FallProofs.v
theories/FallProps.v
theories/SpillSpec.v
theories/SpillModel.v
theories/SpillProofs.v
theories/SpillProps.v
theories/LessSpec.v
theories/LessProofs.v
theories/LessProps.v
theories/HoldProofs.v
theories/HoldProps.v
theories/LargerSpec.v
theories/LargerProofs.v
theories/LargerProps.v
theories/RowSpec.v
theories/RowProofs.v
theories/RowProps.v
theories/TempProofs.v
theories/TempProps.v
theories/PackSpec.v
theories/PackProofs.v
theories/PackProps.v
theories/AgainProofs.v
theories/AgainProps.v
