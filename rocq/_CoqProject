-Q theories Verif
theories/Base.v
theories/BaseLemmas.v
theories/UtilsModel.v
theories/UtilsSpec.v
theories/DerivLemmas.v
theories/PeakLemmas.v
theories/UtilsLemmas.v
theories/Props_Utils.v
theories/ExtremaModel.v
theories/ExtremaSpec.v
theories/ExtremaLemmas.v
theories/Props_Extrema.v
theories/RationalModel.v
theories/RationalSpec.v
theories/RationalLemmas.v
theories/Props_Rational.v
theories/EccModel.v
theories/EccSpec.v
theories/EccLemmas.v
theories/Props_Ecc.v
theories/MeasureModel.v
theories/LevelLemmas.v
theories/MeasureSpec.v
theories/AverageLemmas.v
theories/MeasureLemmas.v
theories/MeasureResults.v
theories/MeasureBounds.v
theories/MeasureMore.v
theories/MeasureUsed.v
theories/Toy.v
theories/Props_Measure.v
theories/Props_Diag.v
theories/SegmentModel.v
theories/SegmentSpec.v
theories/SegmentLemmas.v
theories/Props_Segment.v
theories/DataModel.v
theories/DataSpec.v
theories/DataLemmas.v
theories/DataLemmas2.v
theories/DataUnits.v
theories/DataTotal.v
theories/Props_Data.v
theories/InitModel.v
theories/InitSpec.v
theories/InitLemmas.v
theories/InitOptions.v
theories/InitSame.v
theories/IdleSpec.v
theories/InitIdle.v
theories/InitLevel.v
theories/InitShape.v
theories/InitZero.v
theories/InitResidual.v
theories/InitKeys.v
theories/OptionSpec.v
theories/OptionLemmas.v
theories/InitZeroecc.v
theories/InitToy.v
theories/Props_Init.v
theories/PostModel.v
theories/PostSpec.v
theories/PostLemmas.v
theories/ParseLemmas.v
theories/Props_Post.v
theories/MpiModel.v
theories/MpiSpec.v
theories/MpiLemmas.v
theories/MpiRun.v
theories/MpiInv.v
theories/MpiSafe.v
theories/MpiFinal.v
theories/MpiMore.v
theories/MpiClaims.v
theories/MpiKept.v
theories/Props_Mpi.v
theories/FitsModel.v
theories/FitsSpec.v
theories/FitsLemmas.v
theories/FitsClaims.v
theories/FitsIndex.v
theories/EnvModel.v
theories/EnvLemmas.v
theories/Props_Fits.v
theories/FilterModel.v
theories/FilterSpec.v
theories/MaskModel.v
theories/MaskLemmas.v
theories/FilterLemmas.v
theories/FilterCombine.v
theories/FilterSweep.v
theories/FilterApply.v
theories/FilterCheck.v
theories/FilterFinds.v
theories/FilterToy.v
theories/FilterZeroecc.v
theories/FilterClaims.v
theories/Props_Filter.v
theories/HelperModel.v
theories/HelperSpec.v
theories/CompareLemmas.v
theories/HelperLemmas.v
theories/HelperClaims.v
theories/Props_Helpers.v
theories/LoadModel.v
theories/LoadSpec.v
theories/LoadLemmas.v
theories/LoadKeys.v
theories/LoadWave.v
theories/LoadLAL.v
theories/LoadZero.v
theories/LoadSpins.v
theories/LoadNR.v
theories/LoadSXS.v
theories/LoadInv.v
theories/LoadClaims.v
theories/LoadOther.v
theories/LoadValuesSpec.v
theories/LoadValues.v
theories/LoadWarn.v
theories/DownloadModel.v
theories/DownloadSpec.v
theories/DownloadLemmas.v
theories/LoadToy.v
theories/LoadRuns.v
theories/LoadCases.v
theories/Props_Load.v
theories/Props_Values.v
theories/Props_Download.v
theories/PlotModel.v
theories/PlotSpec.v
theories/PlotLemmas.v
theories/PlotShows.v
theories/PlotKeys.v
theories/PlotToy.v
theories/PlotMore.v
theories/PlotClaims.v
theories/Props_Plot.v
theories/WholeModel.v
theories/WholeSpec.v
theories/WholeLemmas.v
theories/WholeToy.v
theories/Props_Whole.v
theories/Props_Idle.v
theories/ExtraSpec.v
theories/InitExtra.v
theories/Props_Extra.v
theories/FormSpec.v
theories/InitForm.v
theories/FormToy.v
theories/Props_Form.v
theories/ModeSpec.v
theories/InitModes.v
theories/ModeToy.v
theories/Props_Modes.v
theories/SignSpec.v
theories/InitSign.v
theories/SignToy.v
theories/Props_Sign.v
theories/ScaleSpec.v
theories/ScaleLemmas.v
theories/ScaleMeasure.v
theories/ScaleFit.v
theories/ScaleReal.v
theories/ScaleToy.v
theories/ScaleCallSpec.v
theories/ScalePeak.v
theories/ScaleData.v
theories/ScaleCall.v
theories/ScaleCallToy.v
theories/Props_Scale.v
theories/OriginSpec.v
theories/OriginLemmas.v
theories/OriginToy.v
theories/Props_Origin.v
theories/LoudSpec.v
theories/LoudLemmas.v
theories/LoudToy.v
theories/Props_Loud.v
