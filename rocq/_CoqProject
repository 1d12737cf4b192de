-Q theories Verif

theories/Base.v
theories/IndexSpec.v
theories/StdMap.v
theories/SliceModel.v
theories/SliceProofs.v
theories/SliceBuilderProofs.v
theories/SliceProps.v
theories/ReaderModel.v
theories/ReaderProofs.v
theories/ReaderProps.v
theories/ExtractModel.v
theories/ExtractProofs.v
theories/ExtractProps.v
theories/Rounding.v
theories/RegridModel.v
theories/RegridProofs.v
theories/RegridProps.v
theories/SearchModel.v
theories/SearchProofs.v
theories/SearchProps.v
theories/InterpModel.v
theories/InterpProofs.v
theories/InterpProps.v
theories/TimeModel.v
theories/TimeProofs.v
theories/TimeProps.v
theories/StringModel.v
theories/StringProofs.v
theories/StringProps.v
theories/TextModel.v
theories/TextProofs.v
theories/TextProps.v
theories/ConvertModel.v
theories/ConvertProofs.v
theories/ConvertProps.v
theories/CdmModel.v
theories/CdmProofs.v
theories/CdmProps.v
theories/FilesModel.v
theories/FilesProofs.v
theories/FilesProps.v
theories/KeysModel.v
theories/KeysProofs.v
theories/KeysProps.v
theories/AxesModel.v
theories/AxesProofs.v
theories/AxesProps.v
theories/SpecModel.v
theories/SpecProofs.v
theories/SpecProps.v
theories/FillModel.v
theories/FillProofs.v
theories/FillProps.v
theories/LinearModel.v
theories/LinearProps.v
theories/PhysModel.v
theories/PhysProps.v
theories/RotateModel.v
theories/RotateProofs.v
theories/RotateProps.v
theories/AggModel.v
theories/AggProofs.v
theories/AggProps.v
theories/LoopModel.v
theories/LoopProofs.v
theories/LoopProps.v
theories/BlendModel.v
theories/BlendProps.v
theories/MaskModel.v
theories/MaskProps.v
theories/AccumModel.v
theories/AccumProps.v
theories/GribModel.v
theories/GribProps.v
theories/TimeIntModel.v
theories/TimeIntProps.v
theories/FeltModel.v
theories/FeltProps.v
theories/FillWModel.v
theories/FillWProps.v
theories/CrossModel.v
theories/CrossProps.v
theories/MergeModel.v
theories/MergeProps.v
theories/CloseModel.v
theories/CloseProps.v
theories/GdistModel.v
theories/GdistProps.v
theories/VertModel.v
theories/VertProps.v
theories/PconvModel.v
theories/PconvProps.v
theories/CsbModel.v
theories/CsbProps.v
theories/VintModel.v
theories/VintProofs.v
theories/VintProps.v
theories/VmetaModel.v
theories/VmetaProofs.v
theories/VmetaProps.v
theories/ShapeModel.v
theories/ShapeProps.v
theories/SelectModel.v
theories/SelectProps.v
theories/MergedModel.v
theories/MergedProps.v
theories/NcModel.v
theories/NcProps.v
theories/NcwModel.v
theories/NcwProps.v
theories/NcdProps.v
theories/NmlModel.v
theories/NmlProofs.v
theories/NmlProps.v
theories/NmlwModel.v
theories/NmlwProps.v
theories/CfcsModel.v
theories/CfcsProofs.v
theories/CfcsProps.v
theories/CfvertProps.v
theories/VecModel.v
theories/VecProps.v
theories/BestModel.v
theories/BestProps.v
theories/NcmlValuesProps.v
theories/NcwConfProps.v
theories/ProjModel.v
theories/ProjProps.v
theories/ProjTripProofs.v
theories/ProjTripProps.v
theories/ProjConicProps.v
theories/ProjEarthProps.v
theories/ProjReadProps.v
theories/InterpCaseProps.v
theories/IreadModel.v
theories/IreadProofs.v
theories/IreadProps.v
theories/IreadCaseProps.v
theories/IreadFindProps.v
theories/BilinModel.v
theories/BilinProofs.v
theories/BilinProps.v
theories/PbufModel.v
theories/PbufProofs.v
theories/PbufProps.v
theories/PbufFileProps.v
theories/LoopInv.v
theories/VconvModel.v
theories/VconvProofs.v
theories/VconvProps.v
theories/ProjKindProps.v
theories/IofModel.v
theories/IofProps.v
theories/ProjNormProps.v
theories/GwrModel.v
theories/GwrProofs.v
theories/GwrProps.v
theories/GgridModel.v
theories/GgridProofs.v
theories/GgridProps.v
theories/GindModel.v
theories/GindProofs.v
theories/GindProps.v
theories/GlevModel.v
theories/GlevProps.v
theories/CliModel.v
theories/CliProps.v
theories/WrfModel.v
theories/WrfProps.v
theories/CapiModel.v
theories/CapiProps.v
theories/NcaggModel.v
theories/NcaggProps.v
theories/NullwModel.v
theories/NullwProps.v
theories/InstantModel.v
theories/InstantProps.v
theories/TmplModel.v
theories/TmplProps.v
theories/FwordModel.v
theories/FwordProps.v
theories/FgridModel.v
theories/FgridProps.v
theories/GcutModel.v
theories/GcutProps.v
theories/GbmlModel.v
theories/GbmlProps.v
theories/FparModel.v
theories/FparProps.v
theories/XycModel.v
theories/XycProps.v
theories/LgrModel.v
theories/LgrProps.v
theories/VselModel.v
theories/VselProps.v
theories/PieceModel.v
theories/PieceProps.v
theories/TctModel.v
theories/TctProps.v
theories/VrotModel.v
theories/VrotProps.v
