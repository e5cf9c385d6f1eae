-Q theories Verif
theories/Py.v
theories/Num.v
theories/Cal.v
theories/Series.v
theories/UtilModel.v
theories/SpecBase.v
theories/TimeProofs.v
theories/IndexProofs.v
theories/CascadeModel.v
theories/F64.v
theories/PrecipModel.v
theories/SpecCascade.v
theories/CascadeProofs.v
theories/CascadeExact.v
theories/CascadeFloat.v
theories/CascadeRound.v
theories/CascadeSteps.v
theories/CascadeMore.v
theories/CascadeFive.v
theories/CascadeHours.v
theories/CascadeWitness.v
theories/EqualProofs.v
theories/MasterProofs.v
theories/PropsCascade.v
theories/PropsPrecip.v
theories/PropsRound.v
theories/AggModel.v
theories/SpecAgg.v
theories/AggProofs.v
theories/AggExact.v
theories/SpecBuild.v
theories/BuildProofs.v
theories/BuildExact.v
theories/PropsAgg.v
theories/SpecSample.v
theories/PropsSample.v
theories/SpecMasterRound.v
theories/MasterModel.v
theories/MasterProofs2.v
theories/MasterRound.v
theories/PropsMasterRound.v
theories/SpecFiveRound.v
theories/FiveModel.v
theories/FiveRound.v
theories/PropsFiveRound.v
theories/Trans.v
theories/UtilModel2.v
theories/SpecUtil.v
theories/UtilProofs.v
theories/DaysProofs.v
theories/InterpModel.v
theories/SpecInterp.v
theories/InterpProofs.v
theories/ThermoProofs.v
theories/SunProofs.v
theories/CourseProofs.v
theories/PropsUtil.v
theories/SpecDaily.v
theories/PropsDaily.v
theories/Frame.v
theories/TempModel.v
theories/SpecTemp.v
theories/TempProofs.v
theories/TempCourse.v
theories/TempShift.v
theories/PropsTemp.v
theories/CourseModel.v
theories/SpecCourseRound.v
theories/CourseRound.v
theories/PropsCourseRound.v
theories/RadModel.v
theories/RadFitModel.v
theories/SpecRad.v
theories/RadProofs.v
theories/RadBC.v
theories/RadPot.v
theories/SpecSky.v
theories/RadStats.v
theories/PropsRad.v
theories/HumModel.v
theories/SpecHum.v
theories/HumProofs.v
theories/PropsHum.v
theories/WindModel.v
theories/PropsWind.v
theories/StationModel.v
theories/SpecStation.v
theories/StationProofs.v
theories/StationDaily.v
theories/StationCascade.v
theories/PropsStation.v
theories/PropsStation2.v
theories/PropsStation3.v
theories/LinReg.v
theories/PropsStation4.v
theories/SpecCalib.v
theories/CalibCasc.v
theories/PropsStation5.v
theories/PropsStation6.v
theories/PropsRad3.v
theories/BunchModel.v
theories/SpecBunch.v
theories/PropsBunch.v
theories/JsonModel.v
theories/SpecJson.v
theories/JsonProofs.v
theories/PropsJson.v
theories/SmetModel.v
theories/SpecSmet.v
theories/SmetProofs.v
theories/PropsSmet.v
theories/CalProofs.v
theories/IoModel.v
theories/SpecIo.v
theories/PropsIo.v
theories/IndexModel.v
theories/SpecIndex.v
theories/IndexProofs2.v
theories/PropsIndex.v
theories/SpecOrder.v
theories/OrderProofs.v
theories/PropsOrder.v
theories/MasterStoreModel.v
theories/MasterStore.v
theories/PropsMasterStore.v
theories/CascadeTestModel.v
theories/SpecCoarse.v
theories/CascadeCoarse.v
theories/CascadeTest.v
theories/PropsCoarse.v
theories/SineModel.v
theories/SpecSineRound.v
theories/ErrCalc.v
theories/SineRound.v
theories/WindRound.v
theories/PropsSineRound.v
theories/SpecBack.v
theories/PropsBack.v
theories/SpecScaleRound.v
theories/ScaleModel.v
theories/ScaleRound.v
theories/PropsScaleRound.v
theories/SpecHumRound.v
theories/HumRound.v
theories/PropsHumRound.v
theories/SpecNames.v
theories/PropsNames.v
theories/SpecDailyRound.v
theories/DailyModel.v
theories/DailyRound.v
theories/PropsDailyRound.v
theories/PropsInterp.v
theories/PropsHum2.v
theories/SpecInterpRound.v
theories/InterpRound.v
theories/PropsInterpRound.v
theories/CourseMeanModel.v
theories/SpecCourseMean.v
theories/CourseMean.v
theories/PropsCourseMean.v
theories/SpecForeign.v
theories/SmetForeign.v
theories/PropsForeign.v
theories/PropsStationSet.v
theories/PropsTight.v
theories/PropsReach.v
theories/PropsPot.v
theories/SpecNeeds.v
theories/PropsNeeds.v
theories/PropsStatNeeds.v
theories/SpecAggRound.v
theories/SpecCountRound.v
theories/AggRound.v
theories/PropsAggRound.v
theories/CountRound.v
theories/PropsCountRound.v
theories/HumMeanModel.v
theories/SpecHumMean.v
theories/HumMean.v
theories/PropsHumMean.v
theories/BuildRecordModel.v
theories/PropsBuildRecord.v
theories/RadAnyModel.v
theories/SpecRadAny.v
theories/RadAny.v
theories/PropsRadAny.v
theories/PotAnyModel.v
theories/SpecPotAny.v
theories/PotAny.v
theories/PropsPotAny.v
theories/SunAnyModel.v
theories/SpecSunAny.v
theories/SunAny.v
theories/PropsSunAny.v
theories/VapAnyModel.v
theories/SpecVapAny.v
theories/VapAny.v
theories/PropsVapAny.v
theories/DewAnyModel.v
theories/SpecDewAny.v
theories/DewAny.v
theories/PropsDewAny.v
theories/SunLocModel.v
theories/SpecSunLoc.v
theories/PropsSunLoc.v
theories/ShiftModel.v
theories/SpecShift.v
theories/PropsShift.v
theories/PropsMissing.v
theories/MhpModel.v
theories/SpecMhp.v
theories/PropsMhp.v
theories/SpecClear.v
theories/PropsClear.v
theories/SpecNumber.v
theories/PropsNumber.v
theories/SpecSlope.v
theories/PropsSlope.v
theories/SsdModel.v
theories/SpecSsd.v
theories/PropsSsd.v
theories/BcModel.v
theories/SpecBc.v
theories/PropsBc.v
theories/SpecSunDays.v
theories/PropsSunDays.v
theories/SpecGapDays.v
theories/PropsGapDays.v
theories/SpecPieces.v
theories/PropsPieces.v
