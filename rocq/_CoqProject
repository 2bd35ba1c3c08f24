-Q theories Verif
theories/PyBase.v
theories/RBase.v
theories/GridModel.v
theories/GridSpec.v
theories/GridProofs.v
theories/GridProofs2.v
theories/IERSModel.v
theories/GridProofs3.v
theories/GridProps.v
theories/PredictModel.v
theories/PredictSpec.v
theories/PredictProofs.v
theories/PredictProps.v
theories/StrBase.v
theories/InferModel.v
theories/InferSpec.v
theories/InferProofs.v
theories/InferProps.v
theories/EquilSpec.v
theories/EquilProps.v
theories/DoodsonData.v
theories/DoodsonModel.v
theories/DoodsonProps.v
theories/MathModel.v
theories/AstroModel.v
theories/RotationProps.v
theories/AstroProps.v
theories/LegendreSpec.v
theories/LegendreProps.v
theories/NodalBase.v
theories/NodalData.v
theories/ArgModel.v
theories/CompoundSpec.v
theories/PiBounds.v
theories/NodalProofs.v
theories/ArgProps.v
theories/PhaseProps.v
theories/FreqProps.v
theories/TableProps.v
theories/GeoModel.v
theories/GeoSpec.v
theories/GeoProofs.v
theories/LocalProps.v
theories/GeodeticProps.v
theories/MoritzProps.v
theories/BowringProps.v
theories/ZhuProps.v
theories/ConvertProps.v
theories/ConvertProofs.v
theories/ConvertProps2.v
theories/ScaleSpec.v
theories/ScaleProps.v
theories/DatumModel.v
theories/DatumSpec.v
theories/DatumProps.v
theories/DatumProps2.v
theories/GravitySpec.v
theories/GravityProps.v
theories/GravityProps2.v
theories/EllipseModel.v
theories/EllipseProps.v
theories/InterpModel.v
theories/InterpProps.v
theories/ExtrapProps.v
theories/OtisModel.v
theories/OtisProofs.v
theories/OtisProps.v
theories/AtlasSpec.v
theories/AtlasProps.v
theories/EarthModel.v
theories/EarthSpec.v
theories/EarthProofs.v
theories/EarthProofs2.v
theories/EarthProofs3.v
theories/EarthProps.v
theories/LpeSpec.v
theories/LpeProps.v
theories/ConstModel.v
theories/ConstSpec.v
theories/ConstProps.v
theories/ParseModel.v
theories/ParseSpec.v
theories/ParseProps.v
theories/UtilModel.v
theories/UtilSpec.v
theories/UtilProps.v
theories/AsciiModel.v
theories/AsciiSpec.v
theories/AsciiProps.v
theories/AsciiProps2.v
theories/CodecModel.v
theories/CodecSpec.v
theories/CodecProps.v
theories/ValueBase.v
theories/DatabaseData.v
theories/ObjModel.v
theories/ObjSpec.v
theories/ObjProps.v
theories/ObjProps2.v
theories/ObjProps3.v
theories/ObjProps4.v
theories/ObjProps5.v
theories/DefModel.v
theories/DefProps.v
theories/DefProps2.v
theories/ComputeModel.v
theories/ComputeSpec.v
theories/ComputeProofs.v
theories/ComputeProps.v
theories/ComputeProps2.v
theories/ComputeProps3.v
theories/ComputeProps4.v
theories/WriteModel.v
theories/WriteSpec.v
theories/WriteProofs.v
theories/WriteProps.v
theories/ExtractModel.v
theories/ExtractSpec.v
theories/NodeProps.v
theories/ExtractProofs.v
theories/ExtractProps.v
theories/SplineProps.v
theories/ReadProps.v
theories/ReturnProps.v
theories/CaseProps.v
theories/MergeModel.v
theories/MergeSpec.v
theories/MergeProps.v
theories/SeriesModel.v
theories/SeriesSpec.v
theories/SeriesProofs.v
theories/SeriesProps.v
theories/SeriesProps2.v
theories/SeriesProps3.v
theories/SeriesCases.v
theories/StretchProofs.v
theories/AtlasNcModel.v
theories/AtlasNcSpec.v
theories/AtlasNcProps.v
theories/AtlasNcProps2.v
theories/AtlasNcProps3.v
theories/AtlasNcProps4.v
theories/AtlasNcCases.v
theories/MaskModel.v
theories/MaskSpec.v
theories/MaskProps.v
theories/MaskProps2.v
theories/MaskProps3.v
theories/MaskProps4.v
theories/MaskCases.v
theories/GeotiffModel.v
theories/GeotiffSpec.v
theories/GeotiffProps.v
theories/GeotiffProps2.v
theories/GeotiffProps3.v
theories/CsvModel.v
theories/CsvSpec.v
theories/CsvProps.v
theories/CsvProps2.v
theories/CsvProps3.v
theories/CsvProps4.v
theories/Tmd3Model.v
theories/Tmd3Spec.v
theories/Tmd3Props.v
theories/Tmd3Props2.v
theories/Tmd3Cases.v
theories/NutationData.v
theories/NutationModel.v
theories/NutationSpec.v
theories/NutationProps.v
theories/NutationProps2.v
theories/NutationProps3.v
theories/PotentialData.v
theories/PotentialModel.v
theories/PotentialSpec.v
theories/PotentialProps.v
theories/PotentialProps2.v
theories/PotentialProps3.v
theories/PotentialCases.v
theories/ElevationModel.v
theories/ElevationSpec.v
theories/ElevationProofs.v
theories/ElevationProofs2.v
theories/ElevationProps.v
theories/ElevationProps2.v
theories/ElevationProps3.v
theories/ElevationCases.v
theories/ParquetModel.v
theories/ParquetProps.v
theories/LookupModel.v
theories/LookupProps.v
theories/OtisFilesSpec.v
theories/OtisFilesModel.v
theories/OtisFilesProofs.v
theories/OtisFilesProps.v
theories/OtisFilesCases.v
theories/RegularModel.v
theories/RegularSpec.v
theories/RegularProofs.v
theories/RegularProps.v
theories/RegularProps2.v
theories/RegularProps3.v
theories/RegularProps4.v
theories/RegularProps5.v
theories/RegularProps6.v
theories/RegularCases.v
theories/CropModel.v
theories/CropSpec.v
theories/CropProofs.v
theories/CropProofs2.v
theories/CropProps.v
theories/CropProps2.v
theories/CropProps3.v
theories/CropProps4.v
theories/CropProps5.v
theories/CropCases.v
theories/LookupProps2.v
theories/ElevationProps4.v
theories/ShoreModel.v
theories/ShoreSpec.v
theories/ShoreProofs.v
theories/ShoreProps.v
theories/ShoreProps2.v
theories/ShoreCases.v
theories/ShoreProps3.v
theories/CoastModel.v
theories/CoastSpec.v
theories/CoastProofs.v
theories/CoastProps.v
theories/CoastProps2.v
theories/CoastProps3.v
theories/NarrowModel.v
theories/NarrowSpec.v
theories/NarrowProofs.v
theories/NarrowProps.v
theories/NarrowProps2.v
theories/NarrowProps3.v
theories/NarrowProps4.v
theories/NarrowProps5.v
theories/NarrowProps6.v
theories/ReefModel.v
theories/ReefSpec.v
theories/ReefProofs.v
theories/ReefProps.v
theories/ReefProps2.v
theories/ReefProps3.v
theories/ReefProps4.v
theories/ReefProps5.v
theories/ReefProps6.v
theories/LaterModel.v
theories/LaterSpec.v
theories/LaterProofs.v
theories/LaterProps.v
theories/LaterProps2.v
theories/LaterProps3.v
theories/LaterProps4.v
theories/LaterCases.v
theories/LagoonModel.v
theories/LagoonProofs.v
theories/LagoonProps.v
theories/LagoonProps2.v
theories/LagoonProps3.v
theories/LagoonCases.v
theories/FjordModel.v
theories/FjordSpec.v
theories/FjordProofs.v
theories/FjordProps.v
theories/FjordProps2.v
theories/FjordProps3.v
theories/FjordProps4.v
theories/FjordProps5.v
theories/CrsModel.v
theories/CrsSpec.v
theories/CrsProofs.v
theories/CrsProps.v
theories/ReduceModel.v
theories/ReduceSpec.v
theories/ReduceProofs.v
theories/ReduceProofs2.v
theories/ReduceProps.v
theories/ReduceProps2.v
theories/ReduceAtlasModel.v
theories/ReduceAtlasProps.v
theories/ReduceAtlasModel2.v
theories/ReduceAtlasProps2.v
theories/ScriptModel.v
theories/ScriptSpec.v
theories/ScriptProofs.v
theories/ScriptProps.v
theories/ScriptProps2.v
theories/ScriptProps3.v
theories/ScriptProps4.v
theories/WrapModel.v
theories/WrapSpec.v
theories/WrapProps.v
theories/WrapProps2.v
theories/LeafModel.v
theories/LeafSpec.v
theories/LeafProps.v
theories/DownModel.v
theories/DownSpec.v
theories/DownLemmas.v
theories/DownRun.v
theories/DownProps.v
theories/DownProps2.v
theories/DownProps3.v
theories/DownProps4.v
theories/DownProps5.v
theories/DownProps6.v
theories/NetModel.v
theories/NetSpec.v
theories/NetProps.v
theories/NetProps2.v
theories/NetProps3.v
theories/ZipModel.v
theories/ZipSpec.v
theories/ZipProps.v
theories/ZipProps2.v
theories/LoginModel.v
theories/LoginSpec.v
theories/LoginProps.v
theories/CopyModel.v
theories/CopySpec.v
theories/CopyProps.v
