-Q theories Verif
theories/Base.v
theories/StrModel.v
theories/StrSpec.v
theories/StrProofs.v
theories/StrProps.v
theories/RasterModel.v
theories/RasterSpec.v
theories/ListLib.v
theories/RasterProofs.v
theories/RasterProofs2.v
theories/RasterProofs3.v
theories/RasterProps.v
theories/MapModel.v
theories/MapProofs.v
theories/MapProps.v
theories/ArrayModel.v
theories/ArrayProofs.v
theories/ArrayProps.v
theories/ScanModel.v
theories/TimeModel.v
theories/TimeSpec.v
theories/TimeProofs.v
theories/TimeProps.v
theories/MathModel.v
theories/MathSpec.v
theories/MathProofs.v
theories/MathProps.v
theories/FloatModel.v
theories/FloatProofs.v
theories/FloatProps.v
theories/FsModel.v
theories/FsSpec.v
theories/FsProofs.v
theories/FsProps.v
theories/BasicModel.v
theories/BasicSpec.v
theories/BasicProofs.v
theories/BasicProps.v
theories/TypeModel.v
theories/TypeProps.v
theories/CoordModel.v
theories/CoordSpec.v
theories/CoordProofs.v
theories/CoordFloatModel.v
theories/CoordFloatSpec.v
theories/CoordFloatProofs.v
theories/CoordProps.v
theories/SubsetModel.v
theories/SubsetSpec.v
theories/SubsetProofs.v
theories/SubsetProofs2.v
theories/SubsetProofs3.v
theories/SubsetProofs4.v
theories/SubsetProofs5.v
theories/SubsetProofs6.v
theories/SubsetProps.v
theories/MaskModel.v
theories/MaskSpec.v
theories/MaskProofs.v
theories/MaskProofs2.v
theories/MaskProofs3.v
theories/MaskProofs4.v
theories/MaskProofs5.v
theories/MaskProps.v
theories/MongoModel.v
theories/AppModel.v
theories/MongoProofs.v
theories/MongoProps.v
theories/AppSpec.v
theories/AppProofs.v
theories/AppProps.v
theories/CopyModel.v
theories/CopySpec.v
theories/CopyProofs.v
theories/CopyProofs2.v
theories/CopyProofs3.v
theories/CopyProofs4.v
theories/CopyProps.v
theories/NumModel.v
theories/NumSpec.v
theories/NumProofs.v
theories/NumProps.v
theories/AscModel.v
theories/AscSpec.v
theories/AscProofs.v
theories/AscProofs2.v
theories/AscProofs3.v
theories/AscProofs4.v
theories/AscProofs5.v
theories/AscProps.v
theories/CellModel.v
theories/CellSpec.v
theories/CellProofs.v
theories/CellProofs2.v
theories/GdalModel.v
theories/GdalSpec.v
theories/GdalProofs.v
theories/GdalProofs2.v
theories/GdalProofs3.v
theories/GdalProps.v
theories/GdalProps2.v
theories/GridfsModel.v
theories/GridfsSpec.v
theories/GridfsProofs.v
theories/GridfsProofs2.v
theories/GridfsProofs3.v
theories/GridfsProofs4.v
theories/GridfsProofs5.v
theories/GridfsProofs6.v
theories/GridfsProofs7.v
theories/GridfsProofs8.v
theories/GridfsProps.v
theories/GridfsProps2.v
theories/GridfsProps3.v
theories/GridfsProps4.v
theories/OwnModel.v
theories/OwnSpec.v
theories/OwnProofs.v
theories/OwnProofs2.v
theories/OwnProofs3.v
theories/OwnProofs4.v
theories/OwnProofs5.v
theories/OwnProofs6.v
theories/OwnProps.v
theories/OwnProps2.v
theories/Array2DModel.v
theories/Array2DSpec.v
theories/Array2DProofs.v
theories/Array2DProps.v
theories/SubGridModel.v
theories/SubGridSpec.v
theories/SubGridProofs.v
theories/SubGridProofs2.v
theories/SubGridProofs3.v
theories/SubGridProps.v
theories/SubGridProps2.v
theories/LayersModel.v
theories/LayersSpec.v
theories/LayersProofs.v
theories/LayersProofs2.v
theories/LayersProofs3.v
theories/LayersProofs4.v
theories/LayersProofs5.v
theories/LayersProofs6.v
theories/LayersProofs7.v
theories/LayersProps.v
theories/LayersProps2.v
theories/FastTable.v
theories/FastModel.v
theories/FastReal.v
theories/FastRound.v
theories/FastBits.v
theories/FastSqrt.v
theories/FastLn.v
theories/FastLn2.v
theories/FastExp.v
theories/FastExp2.v
theories/FastExp3.v
theories/FastPow.v
theories/FastPow2.v
theories/FastPow3.v
theories/FastFail.v
theories/FastProps.v
theories/ToolModel.v
theories/ToolSpec.v
theories/ToolProofs.v
theories/ToolProofs2.v
theories/ToolProofs3.v
theories/ToolProofs4.v
theories/ToolProofs5.v
theories/ToolProofs6.v
theories/ToolProofs7.v
theories/ToolProofs8.v
theories/ToolProofs9.v
theories/ToolProps.v
theories/BatchModel.v
theories/BatchProofs.v
theories/BatchProps.v
theories/TextModel.v
theories/TextSpec.v
theories/TextProofs.v
theories/TextProps.v
theories/MaskSubModel.v
theories/MaskSubSpec.v
theories/MaskSubProofs.v
theories/MaskSubProofs2.v
theories/MaskSubProofs3.v
theories/MaskSubProofs4.v
theories/MaskSubProps.v
theories/FtoaModel.v
theories/FtoaSpec.v
theories/FtoaProofs.v
theories/FtoaProofs2.v
theories/FtoaProofs3.v
theories/FtoaProps.v
theories/HandleModel.v
theories/HandleSpec.v
theories/HandleProofs.v
theories/HandleProofs2.v
theories/HandleProofs3.v
theories/HandleProofs4.v
theories/HandleProps.v
theories/DiskModel.v
theories/DiskSpec.v
theories/DiskProofs.v
theories/DiskProofs2.v
theories/DiskProofs3.v
theories/DiskProofs4.v
theories/DiskProps.v
theories/AscProofs6.v
theories/PathModel.v
theories/PathSpec.v
theories/PathProofs.v
theories/PathProofs2.v
theories/PathProofs3.v
theories/PathProofs4.v
theories/PathProofs5.v
theories/PathProps.v
theories/PathModel2.v
theories/PathProofs6.v
theories/PathProofs7.v
theories/PathProps2.v
theories/ComModel.v
theories/ComSpec.v
theories/ComProofs.v
theories/ComProofs2.v
theories/ComProofs3.v
theories/ComProps.v
theories/LogModel.v
theories/LogSpec.v
theories/LogProofs.v
theories/LogProps.v
theories/ParModel.v
theories/ParSpec.v
theories/ParProofs.v
theories/ParProofs2.v
theories/ParProofs3.v
theories/ParProofs4.v
theories/ParProofs5.v
theories/ParProofs6.v
theories/ParProps.v
theories/ParProofs7.v
theories/ParProps2.v
theories/ShareModel.v
theories/ShareSpec.v
theories/ShareProofs.v
theories/ShareProofs2.v
theories/ShareProofs3.v
theories/ShareProofs4.v
theories/ShareProps.v
theories/GridMaskModel.v
theories/GridMaskSpec.v
theories/GridMaskProofs.v
theories/GridMaskProofs2.v
theories/GridMaskProps.v
theories/MaskShareModel.v
theories/MaskShareSpec.v
theories/MaskShareProofs.v
theories/MaskShareProofs2.v
theories/MaskShareProofs3.v
theories/MaskShareProps.v
theories/SrsModel.v
theories/SrsProofs.v
theories/SrsProps.v
theories/HeaderModel.v
theories/HeaderSpec.v
theories/HeaderProofs.v
theories/HeaderProps.v
theories/CTypeModel.v
theories/CTypeSpec.v
theories/CTypeProps.v
theories/LengthModel.v
theories/LengthSpec.v
theories/LengthProps.v
