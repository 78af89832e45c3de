-Q theories Verif
theories/Base.v
theories/RLists.v
theories/XR.v
theories/RcModel.v
theories/RcSpec.v
theories/RcProofs.v
theories/RcProps.v
theories/RouletteModel.v
theories/RouletteSpec.v
theories/RouletteProofs.v
theories/RouletteProps.v
theories/PoolModel.v
theories/PoolSpec.v
theories/PoolProofs.v
theories/PoolProps.v
theories/SpecialModel.v
theories/FamModel.v
theories/FamSpec.v
theories/FamProofs.v
theories/FamArith.v
theories/FamReadback.v
theories/FamRound.v
theories/FamHistory.v
theories/FamProps.v
theories/LawModel.v
theories/LawSpec.v
theories/LawProofs.v
theories/LawProps.v
theories/ModModel.v
theories/ModSpec.v
theories/TruncProofs.v
theories/TruncProps.v
theories/CensProps.v
theories/HurdleProps.v
theories/MixModel.v
theories/MixSpec.v
theories/MixProps.v
theories/FitModel.v
theories/FitSpec.v
theories/FitProps.v
theories/OptModel.v
theories/OptProps.v
theories/OptFamProps.v
theories/SelProps.v
theories/DirProps.v
theories/ApiModel.v
theories/ApiProps.v
theories/JitModel.v
theories/JitProps.v
theories/TextModel.v
theories/TextProps.v
theories/PplModel.v
theories/PplProps.v
theories/PpaModel.v
theories/PpaProps.v
theories/SpecProps.v
theories/GeoModel.v
theories/GeoProps.v
theories/MvModel.v
theories/MvProps.v
theories/ResModel.v
theories/ResProps.v
theories/MleModel.v
theories/MleProps.v
theories/BoundModel.v
theories/BoundSpec.v
theories/BoundProps.v
theories/CatModel.v
theories/CatSpec.v
theories/CatProps.v
theories/EvalTable.v
theories/EvalModel.v
theories/EvalSpec.v
theories/EvalProps.v
theories/BackModel.v
theories/BackSpec.v
theories/BackProps.v
theories/PymcModel.v
theories/PymcSpec.v
theories/PymcProps.v
theories/HdiModel.v
theories/HdiSpec.v
theories/HdiProps.v
theories/StatModel.v
theories/StatSpec.v
theories/StatProps.v
theories/RiceModel.v
theories/RiceProps.v
theories/ReModel.v
theories/SourceModel.v
theories/ReProofs.v
theories/SourceSpec.v
theories/SourceProofs.v
theories/SourceProps.v
theories/ExploreModel.v
theories/ExploreSpec.v
theories/ExploreProofs.v
theories/ExploreProps.v
theories/DrawModel.v
theories/DrawSpec.v
theories/DrawProps.v
theories/PointModel.v
theories/PointProps.v
theories/SliderModel.v
theories/SliderProps.v
theories/CategModel.v
theories/CategProps.v
theories/WidgetModel.v
theories/WidgetProps.v
theories/PriorModel.v
theories/PriorProps.v
theories/ShowModel.v
theories/ShowProps.v
theories/PlotModel.v
theories/PlotProps.v
theories/SampleModel.v
theories/SampleProps.v
theories/WarnModel.v
theories/WarnProps.v
theories/LoopModel.v
theories/LoopProps.v
theories/CurveModel.v
theories/CurveProps.v
theories/MultiModel.v
theories/MultiProps.v
theories/ExpectSpec.v
theories/ExpectProps.v
theories/QuantProps.v
theories/GraphModel.v
theories/GraphProps.v
theories/RcTextModel.v
theories/RcTextProps.v
theories/RvsModel.v
theories/RvsProps.v
theories/RefBib.v
theories/CiteModel.v
theories/CiteProps.v
theories/ScreenModel.v
theories/ScreenProps.v
theories/LabelModel.v
theories/LabelProps.v
theories/BoxModel.v
theories/BoxProps.v
theories/ChipProps.v
theories/ConvModel.v
theories/ConvProps.v
theories/WrapModel.v
theories/WrapProps.v
theories/FloatModel.v
theories/FloatProofs.v
theories/FloatProps.v
theories/FloatConvModel.v
theories/FloatConvProps.v
theories/WeibullProps.v
theories/ArrModel.v
theories/ArrProps.v
theories/FloatGridModel.v
theories/FloatGridProps.v
theories/PmBoundModel.v
theories/PmBoundProps.v
theories/CatInfoModel.v
theories/CatInfoProps.v
theories/RcIterModel.v
theories/RcIterProps.v
theories/RngModel.v
theories/RngProps.v
