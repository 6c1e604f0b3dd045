-Q theories Verif
theories/Base.v
theories/Num.v
theories/RealNum.v
theories/NumFloat.v
theories/VecModel.v
theories/MatModel.v
theories/MatLemmas.v
theories/VecProofs.v
theories/VecReal.v
theories/VecProofs2.v
theories/RSpec.v
theories/MatSpec.v
theories/MatProofs.v
theories/MatProofs2.v
theories/MatProofs3.v
theories/MatReal.v
theories/CholProofs.v
theories/CholProofs2.v
theories/DetSpec.v
theories/LuProofs.v
theories/LuProofs2.v
theories/LinSolverModel.v
theories/LinSolverProofs.v
theories/BoundsModel.v
theories/BoundsProofs.v
theories/CorrModel.v
theories/CorrSpec.v
theories/CorrProofs.v
theories/CorrDeriv.v
theories/PsdKernel.v
theories/CorrObj.v
theories/StM.v
theories/DataModel.v
theories/DataSpec.v
theories/DataProofs.v
theories/DataReal.v
theories/LuComplete.v
theories/KrigModel.v
theories/KrigSpec.v
theories/KrigMath.v
theories/KrigProofs.v
theories/KrigProofs2.v
theories/KrigProofs3.v
theories/KrigProg.v
theories/KrigProofs4.v
theories/KrigProofs5.v
theories/DesignModel.v
theories/HistModel.v
theories/HistSpec.v
theories/HistProofs.v
theories/ErfMath.v
theories/PiMath.v
theories/AcqModel.v
theories/AcqSpec.v
theories/AcqProofs.v
theories/OptModel.v
theories/OptProofs.v
theories/OptSpec.v
theories/OptReal.v
theories/OptRun.v
theories/OptRunReal.v
theories/OptStart.v
theories/OptTop.v
theories/EaModel.v
theories/EaProofs.v
theories/EaRun.v
theories/EaReal.v
theories/EaDemo.v
theories/TrainModel.v
theories/TrainProofs.v
theories/TrainReal.v
theories/TrainEval.v
theories/TrainMore.v
theories/GradModel.v
theories/GradSpec.v
theories/GradProofs.v
theories/GradReal.v
theories/StrModel.v
theories/StrSpec.v
theories/StrProofs.v
theories/StrNum.v
theories/StrReal.v
theories/KeyModel.v
theories/ApiModel.v
theories/ApiSpec.v
theories/ApiText.v
theories/ApiProofs.v
theories/ApiDoE.v
theories/ApiStudy.v
theories/ApiReal.v
theories/ApiRun.v
theories/DriverModel.v
theories/DriverSpec.v
theories/DriverText.v
theories/DriverKeys.v
theories/DriverParts.v
theories/DriverProofs.v
theories/DriverRead.v
theories/DriverWhole.v
theories/DriverConfig.v
theories/DriverRun.v
theories/DriverFail.v
theories/DriverDemo.v
theories/ExtModel.v
theories/ExtSpec.v
theories/ExtProofs.v
theories/EaLive.v
theories/TrainObj.v
theories/TrainDemo.v
theories/CsvModel.v
theories/CsvSpec.v
theories/CsvProofs.v
theories/SetModel.v
theories/SetSpec.v
theories/EaFileModel.v
theories/EaFileSpec.v
theories/EaFileProofs.v
theories/EaWarm.v
theories/RunFileModel.v
theories/RunFileSpec.v
theories/RunFileText.v
theories/RunFileProofs.v
theories/StudyModel.v
theories/StudyFit.v
theories/StudySpec.v
theories/StudyStep.v
theories/StudyLoop.v
theories/StudyRun.v
theories/TesterModel.v
theories/TesterFrame.v
theories/TesterSpec.v
theories/TesterProofs.v
theories/TesterProofs2.v
theories/TesterProofs3.v
theories/TesterProofs4.v
theories/TesterProofs5.v
theories/TesterProofs6.v
theories/TesterProofs7.v
theories/TesterDemo.v
theories/TesterDemo2.v
theories/MainModel.v
theories/MainSpec.v
theories/MainProofs.v
theories/MainProofs2.v
theories/MainDemo.v
theories/DesignFileModel.v
theories/DesignFileSpec.v
theories/ModeModel.v
theories/FloatSpec.v
theories/FloatFlocq.v
theories/FloatProofs.v
theories/FloatOpt.v
theories/FloatDesign.v
theories/FloatRun.v
theories/QueryModel.v
theories/GradStepModel.v
theories/OutSampleModel.v
theories/PropsAcq.v
theories/PropsApi.v
theories/PropsBounds.v
theories/PropsCorr.v
theories/PropsCrowd.v
theories/PropsCsv.v
theories/PropsData.v
theories/PropsDesignFile.v
theories/PropsDriver.v
theories/PropsEa.v
theories/PropsEaFile.v
theories/PropsExt.v
theories/PropsGrad.v
theories/PropsGradStep.v
theories/PropsHist.v
theories/PropsKey.v
theories/PropsKrig.v
theories/PropsLin.v
theories/PropsMain.v
theories/PropsMat.v
theories/PropsMode.v
theories/PropsOpt.v
theories/PropsOutSample.v
theories/PropsQuery.v
theories/PropsRoundRun.v
theories/PropsRounding.v
theories/PropsRunFile.v
theories/PropsSet.v
theories/PropsStat.v
theories/PropsStr.v
theories/PropsStrVec.v
theories/PropsStudy.v
theories/PropsTest.v
theories/PropsTester.v
theories/PropsTight.v
theories/PropsTrain.v
theories/PropsVec.v
