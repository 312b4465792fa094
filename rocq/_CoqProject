-Q theories Verif
theories/CBase.v
theories/CLemmas.v
theories/ChineseData.v
theories/DateModel.v
theories/DateVocab.v
theories/DatePure.v
theories/DatePureIslRev.v
theories/DatePurePersian.v
theories/DatePureHebrew.v
theories/DateRound.v
theories/DateChart.v
theories/DateSpec.v
theories/DateFacts.v
theories/DateCount.v
theories/DateJG.v
theories/DateHebSpec.v
theories/DateMore.v
theories/DateThms.v
theories/PropDates.v
theories/TimeModel.v
theories/TimeSpec.v
theories/TimeProofs.v
theories/LeapProofs.v
theories/EasterProofs.v
theories/TimeThms.v
theories/PropTime.v
theories/CStr.v
theories/StrModel.v
theories/StrProofs.v
theories/StrThms.v
theories/PropStr.v
theories/DesigModel.v
theories/DesigBase.v
theories/DesigUnpack.v
theories/DesigClosed.v
theories/DesigPack.v
theories/DesigSpec.v
theories/DesigRound.v
theories/DesigTotal.v
theories/DesigAny.v
theories/DesigThms.v
theories/PropDesig.v
theories/MiscModel.v
theories/CgiModel.v
theories/CgiSpec.v
theories/CgiProofs.v
theories/CgiThms.v
theories/PropCgi.v
theories/MiscSpec.v
theories/MiscProofs.v
theories/MiscThms.v
theories/PropMisc.v
theories/RBase.v
theories/BrentModel.v
theories/BrentSpec.v
theories/BrentProofs.v
theories/BrentSteps.v
theories/BrentStuck.v
theories/BrentThms.v
theories/PropBrent.v
theories/SplineModel.v
theories/SplineSpec.v
theories/SplineProofs.v
theories/SplineCubic.v
theories/SplineThms.v
theories/PropSpline.v
theories/TrigBase.v
theories/RotModel.v
theories/RotSpec.v
theories/RotProofs.v
theories/RotThms.v
theories/PropRot.v
theories/PrecModel.v
theories/PrecSpec.v
theories/PrecProofs.v
theories/PrecThms.v
theories/PropPrec.v
theories/DistModel.v
theories/DistSpec.v
theories/DistThms.v
theories/PropDist.v
theories/ConModel.v
theories/ConSpec.v
theories/ConThms.v
theories/PropCon.v
theories/MarsModel.v
theories/MarsSpec.v
theories/MarsThms.v
theories/PropMars.v
theories/MpctModel.v
theories/MpctSpec.v
theories/MpctThms.v
theories/PropMpct.v
theories/AdesModel.v
theories/AdesSpec.v
theories/AdesProofs.v
theories/AdesXml.v
theories/AdesNest.v
theories/AdesSafe.v
theories/AdesPsv.v
theories/AdesThms.v
theories/PropAdes.v
theories/TstrModel.v
theories/TstrSpec.v
theories/TstrCopy.v
theories/TstrNum.v
theories/TstrOff.v
theories/TstrDate.v
theories/TstrSplit.v
theories/TstrField.v
theories/TstrThree.v
theories/TstrRoles.v
theories/TstrRead.v
theories/TstrOther.v
theories/TstrForms.v
theories/TstrTwo.v
theories/TstrWords.v
theories/TstrKeys.v
theories/TstrBad.v
theories/TstrMore.v
theories/TstrThms.v
theories/PropTstr.v
theories/CtimeModel.v
theories/CtimeSpec.v
theories/CtimeBuf.v
theories/CtimeProofs.v
theories/CtimeText.v
theories/CtimeJd.v
theories/CtimeRound.v
theories/CtimeBad.v
theories/CtimeThms.v
theories/PropCtime.v
theories/MpcfModel.v
theories/MpcfSpec.v
theories/MpcfWrite.v
theories/MpcfRead.v
theories/MpcfThms.v
theories/PropMpcf.v
theories/MpcdSpec.v
theories/MpcdProofs.v
theories/MpcdThms.v
theories/PropMpcd.v
theories/AngModel.v
theories/AngSpec.v
theories/AngProofs.v
theories/AngThms.v
theories/PropAng.v
theories/EllModel.v
theories/EllSpec.v
theories/EllProofs.v
theories/EllThms.v
theories/PropEll.v
theories/CodeModel.v
theories/CodeSpec.v
theories/CodeProofs.v
theories/CodeThms.v
theories/PropCode.v
theories/OrbModel.v
theories/OrbSpec.v
theories/OrbProofs.v
theories/OrbKepler.v
theories/OrbSeries.v
theories/OrbNewton.v
theories/OrbThms.v
theories/PropOrb.v
theories/ClaModel.v
theories/ClaSpec.v
theories/ClaProofs.v
theories/ClaOrbit.v
theories/ClaRun.v
theories/ClaThms.v
theories/PropCla.v
theories/AzModel.v
theories/AzSpec.v
theories/AzProofs.v
theories/AzFull.v
theories/AzGal.v
theories/AzThms.v
theories/PropAz.v
theories/SofModel.v
theories/SofSpec.v
theories/SofProofs.v
theories/SofDate.v
theories/SofThms.v
theories/PropSof.v
theories/DtModel.v
theories/DtSpec.v
theories/DtProofs.v
theories/DtTable.v
theories/DtUtc.v
theories/DtThms.v
theories/PropDt.v
theories/EopModel.v
theories/EopSpec.v
theories/EopProofs.v
theories/EopLoad.v
theories/EopGet.v
theories/EopVocab.v
theories/EopCore.v
theories/EopSample.v
theories/EopThms.v
theories/PropEop.v
theories/ObsModel.v
theories/ObsSpec.v
theories/ObsProofs.v
theories/ObsMore.v
theories/ObsLines.v
theories/ObsPsv.v
theories/ObsLong.v
theories/ObsThms.v
theories/PropObs.v
theories/ObsSatSpec.v
theories/ObsSat.v
theories/ObsSat2.v
theories/CospModel.v
theories/CospSpec.v
theories/CospHist.v
theories/CospText.v
theories/CospTerms.v
theories/CospScan.v
theories/CospFind.v
theories/CospLoad.v
theories/CospThms.v
theories/PropCosp.v
theories/MpcoModel.v
theories/MpcoSpec.v
theories/MpcoSays.v
theories/MpcoProofs.v
theories/MpcoLine.v
theories/MpcoThms.v
theories/PropMpco.v
theories/CsvModel.v
theories/CsvSpec.v
theories/CsvProofs.v
theories/CsvTime.v
theories/CsvRow.v
theories/CsvFile.v
theories/CsvThms.v
theories/PropCsv.v
theories/M2sModel.v
theories/M2sSpec.v
theories/M2sProofs.v
theories/M2sTime.v
theories/M2sThms.v
theories/PropM2s.v
theories/GeoModel.v
theories/GeoSpec.v
theories/GeoProofs.v
theories/GeoThms.v
theories/PropGeo.v
theories/ShowModel.v
theories/ShowSpec.v
theories/ShowProofs.v
theories/ShowEpoch.v
theories/ShowThms.v
theories/PropShow.v
theories/NanoModel.v
theories/NanoSpec.v
theories/NanoThms.v
theories/PropNano.v
theories/RockModel.v
theories/RockSpec.v
theories/RockProofs.v
theories/RockThms.v
theories/PropRock.v
theories/ComModel.v
theories/ComSpec.v
theories/ComProofs.v
theories/ComThms.v
theories/PropCom.v
theories/RockCentre.v
theories/ColModel.v
theories/ColSpec.v
theories/ColProofs.v
theories/ColThms.v
theories/PropCol.v
theories/RefModel.v
theories/RefSpec.v
theories/RefProofs.v
theories/RefThms.v
theories/PropRef.v
