-Q theories Verif

theories/Common.v
theories/CommonProofs.v
theories/CoreSpec.v
theories/IndexModel.v
theories/IndexProofs.v
theories/IndexTheorems.v
theories/Float64.v
theories/Float64Proofs.v
theories/DecompSpec.v
theories/DecompModel.v
theories/DecompProofs.v
theories/DecompProofs2.v
theories/DecompProofs3.v
theories/DecompProofs4.v
theories/DecompTheorems.v
theories/ArraySpec.v
theories/ArrayModel.v
theories/ArrayRep.v
theories/ArrayProofs.v
theories/LocalModel.v
theories/LocalSpec.v
theories/LocalProofs.v
theories/LocalProofs2.v
theories/LocalTheorems.v
theories/AggregateModel.v
theories/AggregateSpec.v
theories/AggregateProofs.v
theories/AggregateTheorems.v
theories/ZonalModel.v
theories/ZonalSpec.v
theories/ZonalProofs.v
theories/ZonalTheorems.v
theories/RasterCheck.v
theories/GridModel.v
theories/GridProofs.v
theories/GridRaster.v
theories/FocalSpec.v
theories/FocalModel.v
theories/FocalRep.v
theories/FocalProofs.v
theories/FocalProofs2.v
theories/FocalProofs3.v
theories/FocalFunctorsModel.v
theories/FocalProofs4.v
theories/FocalProofs5.v
theories/FocalTheorems.v
theories/FlowSpec.v
theories/AccuSpec.v
theories/FlowModel.v
theories/RouterModel.v
theories/AccuModel.v
theories/RouterSpec.v
theories/FlowProofs.v
theories/FlowProofs2.v
theories/FlowProofs3.v
theories/FlowProofs4.v
theories/RouterProofs.v
theories/RouterProofs2.v
theories/RouterProofs3.v
theories/RouterProofs4.v
theories/RouterProofs5.v
theories/AccuProofs.v
theories/AccuProofs2.v
theories/AccuProofs3.v
theories/FlowCheck.v
theories/FlowProofs5.v
theories/FlowTheorems.v
theories/AccuCheck.v
theories/AccuProofs4.v
theories/AccuTheorems.v
theories/StreamModel.v
theories/StreamProofs.v
theories/StreamTheorems.v
theories/OrderModel.v
theories/OrderSpec.v
theories/OrderProofs.v
theories/OrderProofs2.v
theories/OrderProofs3.v
theories/OrderProofs4.v
theories/OrderProofs5.v
theories/OrderCheck.v
theories/OrderTheorems.v
theories/WalkModel.v
theories/WalkSpec.v
theories/WalkProofs.v
theories/WalkProofs2.v
theories/WalkProofs3.v
theories/WalkProofs4.v
theories/WalkTheorems.v
theories/ResampleModel.v
theories/ResampleSpec.v
theories/ResampleProofs.v
theories/ResampleProofs2.v
theories/ResampleTheorems.v
theories/UniqueModel.v
theories/UniqueSpec.v
theories/UniqueProofs.v
theories/UniqueProofs2.v
theories/UniqueTheorems.v
theories/SimulateModel.v
theories/SimulateSpec.v
theories/SimulateProofs.v
theories/SimulateTheorems.v
theories/RecycleModel.v
theories/RecycleProofs.v
theories/RecycleTheorems.v
theories/IOModel.v
theories/IOSpec.v
theories/IOProofs.v
theories/IOProofs2.v
theories/IOProofs3.v
theories/IOTheorems.v
theories/IOOrderModel.v
theories/IOOrderSpec.v
theories/IOOrderProofs.v
theories/IOOrderProofs2.v
theories/IOOrderTheorems.v
theories/ClumpSpec.v
theories/ClumpModel.v
theories/ClumpProofs.v
theories/ClumpProofs2.v
theories/ClumpProofs3.v
theories/ClumpProofs4.v
theories/ClumpProofs5.v
theories/ClumpProofs6.v
theories/ClumpProofs7.v
theories/ClumpProofs8.v
theories/ClumpProofs9.v
theories/ClumpTheorems.v
theories/CreateSpec.v
theories/CreateModel.v
theories/CreateProofs.v
theories/CreateProofs2.v
theories/CreateTheorems.v
theories/FloatOrder.v
theories/TerrainSpec.v
theories/TerrainModel.v
theories/TerrainProofs.v
theories/TerrainProofs2.v
theories/TerrainTheorems.v
theories/SlopeSpec.v
theories/SlopeModel.v
theories/SlopeProofs.v
theories/SlopeProofs2.v
theories/SlopeTheorems.v
theories/NumpyModel.v
theories/NumpySpec.v
theories/NumpyProofs.v
theories/NumpyProofs2.v
theories/NumpyProofs3.v
theories/NumpyProofs4.v
theories/NumpyTheorems.v
theories/ValueModel.v
theories/ValueSpec.v
theories/ValueProofs.v
theories/ValueProofs2.v
theories/ValueProofs3.v
theories/ValueProofs4.v
theories/ValueTheorems.v
theories/ValidateModel.v
theories/ValidateSpec.v
theories/ValidateProofs.v
theories/ValidateProofs2.v
theories/ValidateProofs3.v
theories/ValidateTheorems.v
theories/ChunkModel.v
theories/ChunkSpec.v
theories/ChunkProofs.v
theories/ChunkProofs2.v
theories/ChunkProofs3.v
theories/ChunkProofs4.v
theories/ChunkProofs5.v
theories/ChunkTheorems.v
theories/RouterSim.v
theories/RouterSim2.v
theories/AccuFloatModel.v
theories/AccuFloatSpec.v
theories/AccuFloatProofs.v
theories/AccuFloatProofs2.v
theories/AccuFloatProofs3.v
theories/AccuFloatTheorems.v
theories/FloatSumModel.v
theories/FloatSumSpec.v
theories/FloatSumProofs.v
theories/FloatSumTheorems.v
theories/GdalModel.v
theories/GdalSpec.v
theories/GdalProofs.v
theories/GdalProofs2.v
theories/GdalTheorems.v
theories/TranslateModel.v
theories/TranslateSpec.v
theories/TranslateProofs.v
theories/TranslateProofs2.v
theories/TranslateTheorems.v
theories/GdalArrayModel.v
theories/GdalArraySpec.v
theories/GdalArrayProofs.v
theories/GdalArrayTheorems.v
theories/IntegrateModel.v
theories/IntegrateSpec.v
theories/IntegrateProofs.v
theories/IntegrateProofs2.v
theories/IntegrateTheorems.v
theories/KinematicModel.v
theories/KinematicSpec.v
theories/KinematicSolver.v
theories/KinematicProofs.v
theories/KinematicProofs2.v
theories/KinematicProofs3.v
theories/KinematicTheorems.v
theories/NumpyArrayModel.v
theories/NumpyArraySpec.v
theories/NumpyArrayProofs.v
theories/NumpyArrayTheorems.v
theories/PcrModel.v
theories/PcrSpec.v
theories/PcrProofs.v
theories/PcrFloat.v
theories/PcrFloatProofs.v
theories/PcrTheorems.v
theories/RunnerModel.v
theories/RunnerSpec.v
theories/RunnerProofs.v
theories/RunnerProofs2.v
theories/RunnerTheorems.v
theories/FileNameModel.v
theories/FileNameSpec.v
theories/FileNameProofs.v
theories/FileNameTheorems.v
theories/CatalogModel.v
theories/CatalogSpec.v
theories/CatalogProofs.v
theories/CatalogProofs2.v
theories/CatalogProofs3.v
theories/CatalogProofs4.v
theories/CatalogProofs5.v
theories/CatalogTheorems.v
theories/RasterViewModel.v
theories/RasterViewSpec.v
theories/RasterViewProofs.v
theories/RasterViewProofs2.v
theories/RasterViewProofs3.v
theories/RasterViewProofs4.v
theories/RasterViewProofs5.v
theories/RasterViewTheorems.v
theories/PathNameModel.v
theories/PathNameSpec.v
theories/PathNameProofs.v
theories/PathNameTheorems.v
theories/PcrWindowModel.v
theories/PcrWindowSpec.v
theories/PcrWindowProofs.v
theories/PcrWindowTheorems.v
theories/TimeSeriesModel.v
theories/TimeSeriesSpec.v
theories/TimeSeriesProofs.v
theories/TimeSeriesTheorems.v
theories/AllocateModel.v
theories/AllocateSpec.v
theories/AllocateProofs.v
theories/AllocateProofs2.v
theories/AllocateProofs3.v
theories/AllocateProofs4.v
theories/AllocateTheorems.v
theories/RandomModel.v
theories/RandomSpec.v
theories/RandomProofs.v
theories/RandomProofs2.v
theories/RandomTheorems.v
theories/ConfigEntryModel.v
theories/ConfigEntrySpec.v
theories/ConfigEntryProofs.v
theories/ConfigEntryProofs2.v
theories/ConfigEntryProofs3.v
theories/ConfigEntryTheorems.v
theories/AccuInfoModel.v
theories/AccuInfoSpec.v
theories/AccuInfoProofs.v
theories/AccuInfoProofs2.v
theories/AccuInfoProofs3.v
theories/AccuInfoProofs4.v
theories/AccuInfoProofs5.v
theories/AccuInfoTheorems.v
theories/IdentifierModel.v
theories/IdentifierSpec.v
theories/IdentifierProofs.v
theories/IdentifierProofs2.v
theories/IdentifierTheorems.v
theories/PartDataModel.v
theories/PartDataSpec.v
theories/PartDataProofs.v
theories/PartDataProofs2.v
theories/PartDataProofs3.v
theories/PartDataTheorems.v
theories/PartOpModel.v
theories/PartOpSpec.v
theories/PartOpProofs.v
theories/PartOpTheorems.v
theories/ZonalFloatModel.v
theories/ZonalFloatProofs.v
theories/ZonalFloatTheorems.v
theories/AllocateArgsTheorems.v
theories/PoolModel.v
theories/PoolProofs.v
theories/PoolProofs2.v
theories/PoolTheorems.v
theories/BenchModel.v
theories/BenchProofs.v
theories/BenchTheorems.v
theories/ScaleModel.v
theories/ScaleProofs.v
theories/ScaleTheorems.v
theories/ArrayShapeModel.v
theories/ArrayShapeProofs.v
theories/ArrayShapeTheorems.v
