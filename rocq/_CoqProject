-Q theories Verif
theories/Fmt.v
theories/Spec.v
theories/FloatFacts.v
theories/Exc.v
theories/Deco.v
theories/SpecApi.v
theories/MBase.v
theories/PBase.v
theories/Ex.v
theories/MBool.v
theories/MArith.v
theories/PArith.v
theories/C01.v
theories/C03.v
theories/PMul.v
theories/PFma.v
theories/PDiv.v
theories/PUnary.v
theories/C04.v
theories/C05.v
theories/C06.v
theories/C07.v
theories/PConv.v
theories/SpecRel.v
theories/PBool.v
theories/MOverlap.v
theories/SpecOverlap.v
theories/POverlap.v
theories/PSetop.v
theories/MApi.v
theories/PApi.v
theories/C18.v
theories/C19.v
theories/C20.v
theories/PClass.v
theories/MHist.v
theories/PHist.v
theories/C30.v
theories/C31.v
theories/C02.v
theories/C29.v
theories/C38.v
theories/SpecElem.v
theories/MElem.v
theories/PElem.v
theories/PElem2.v
theories/C10.v
theories/C13.v
theories/C15.v
theories/MPow.v
theories/PPown.v
theories/PPow.v
theories/C08.v
theories/C09.v
theories/MTrig.v
theories/PTrigR.v
theories/PTrig.v
theories/PNum.v
theories/PIrr.v
theories/PTan.v
theories/PTrigT.v
theories/C11.v
theories/PTanF.v
theories/C12.v
theories/SpecAtan2.v
theories/MAtan2.v
theories/PAtan2.v
theories/C14.v
theories/SpecDeco.v
theories/MDec.v
theories/PCont.v
theories/PDec.v
theories/PDecF.v
theories/PDecT.v
theories/C16.v
theories/SpecMixed.v
theories/MMixed.v
theories/PMixed.v
theories/C28.v
theories/SpecNum.v
theories/MNum.v
theories/PNumF.v
theories/C21.v
theories/PMidOver.v
theories/C22.v
theories/SpecCancel.v
theories/MCancel.v
theories/PTwoSum.v
theories/PTwoSumX.v
theories/SpecBlind.v
theories/PBlind.v
theories/PCancel.v
theories/C23.v
theories/C40.v
theories/MRev.v
theories/SpecRev.v
theories/PRev.v
theories/PMulRev.v
theories/SpecMulRev.v
theories/PMulRevX.v
theories/PRevEven.v
theories/PPownRev.v
theories/PPownRev2.v
theories/PPownRev3.v
theories/PPownRev4.v
theories/SpecPownRev.v
theories/PPownRev5.v
theories/PRevW.v
theories/PPownRev6.v
theories/PPownRev7.v
theories/C24.v
theories/C25.v
theories/MTrigRev.v
theories/PTrigRev.v
theories/PTrigRev2.v
theories/PTrigRev3.v
theories/SpecNear.v
theories/PTrigRev4.v
theories/C26.v
theories/C27.v
theories/SpecIso.v
theories/PIso.v
theories/PIsoMixed.v
theories/C33.v
theories/PInv.v
theories/PInvOps.v
theories/PInv2.v
theories/C32.v
theories/SpecNai.v
theories/PNai.v
theories/MRev1.v
theories/PRev1.v
theories/C17.v
theories/SpecRound.v
theories/MMpfr.v
theories/PMpfr.v
theories/PMpfr2.v
theories/C39.v
theories/MRed.v
theories/SpecRed.v
theories/PRed.v
theories/SpecRedX.v
theories/PRedX.v
theories/SpecRedPerm.v
theories/PRedDir.v
theories/PRedErr.v
theories/C34.v
theories/MStream.v
theories/MDecoIo.v
theories/SpecDecoText.v
theories/PDecoIo.v
theories/C37.v
theories/MText.v
theories/MPrint.v
theories/PText.v
theories/PText2.v
theories/PPrint.v
theories/PPrint2.v
theories/ExText.v
theories/SpecPrec.v
theories/PPrec.v
theories/C36.v
theories/MRegex.v
theories/MRead.v
theories/PQround.v
theories/SpecLiteral.v
theories/PRegex.v
theories/PLiteral.v
theories/PInfSup.v
theories/PReadVal.v
theories/PUncertain.v
theories/SpecRead.v
theories/PRead.v
theories/PReadMain.v
theories/PReadAll.v
theories/PReadStr.v
theories/PTrip.v
theories/PTrip2.v
theories/PTrip3.v
theories/PTrip4.v
theories/C35.v
theories/C41.v
theories/MUncertain.v
theories/SpecUncertain.v
theories/PUncert.v
theories/PUncert2.v
theories/PUncert3.v
theories/PUncert4.v
theories/PUncert5.v
theories/PUncert6.v
theories/C42.v
theories/MProg.v
theories/SpecProg.v
theories/PValid.v
theories/PValid2.v
theories/PValid3.v
theories/PValid4.v
theories/PValid5.v
theories/PValid6.v
theories/C43.v
theories/MRoots.v
theories/SpecRoots.v
theories/PRoots.v
theories/PRoots2.v
theories/PRoots3.v
theories/C44.v
theories/MManip.v
theories/SpecManip.v
theories/PManip.v
theories/PManip2.v
theories/PManip3.v
theories/PManip4.v
theories/C45.v
theories/MMem.v
theories/SpecMem.v
theories/PMem.v
theories/C46.v
theories/SpecTan.v
theories/PTanOff.v
theories/PTan64.v
theories/SpecTan2.v
theories/PTanIff.v
theories/PTanW.v
theories/SpecExpr.v
theories/MExpr.v
theories/PExpr.v
theories/C47.v
theories/SpecContr.v
theories/PContr.v
theories/PContr2.v
theories/C48.v
theories/SpecAlg.v
theories/PAlg.v
theories/PAlg2.v
theories/C49.v
theories/MClass.v
theories/SpecClass.v
theories/PObj.v
theories/PObj2.v
theories/C50.v
theories/MStep.v
theories/SpecStep.v
theories/PStep.v
theories/PStep2.v
theories/C51.v
theories/PTrigUB.v
theories/PCalm0.v
theories/PCalm.v
theories/SpecCalm.v
theories/PCalmC.v
theories/PQuiet.v
theories/SpecFar.v
theories/PCalm1.v
theories/PTrigFar.v
theories/C52.v
theories/SpecAgree.v
theories/PAgree.v
theories/PAgree2.v
theories/PAgree3.v
theories/C53.v
theories/SpecStrong.v
theories/PStrong.v
theories/PStrong2.v
theories/PStrong3.v
theories/PStrong4.v
theories/C54.v
theories/SpecFp.v
theories/PFp.v
theories/SpecFpStep.v
theories/PFpStep.v
theories/C55.v
theories/SpecPoint.v
theories/PPoint.v
theories/C56.v
theories/SpecOver.v
theories/POver.v
theories/POver2.v
theories/POver3.v
theories/POver4.v
theories/SpecSplit.v
theories/PSplit.v
theories/PSplit2.v
theories/PSplit3.v
theories/C57.v
theories/C58.v
theories/SpecMirror.v
theories/PMirror.v
theories/PMirror2.v
theories/PMirror3.v
theories/SpecMirror2.v
theories/PMirror4.v
theories/C59.v
theories/PTwice.v
theories/PTwice2.v
theories/C60.v
theories/PRedPerm.v
theories/C61.v
theories/SpecRedItv.v
theories/PRedItv.v
theories/PRedOrd.v
theories/PRedExact.v
theories/C62.v
theories/PRedMono.v
theories/PRedDot.v
theories/C63.v
theories/TestRun.v
theories/TestSet.v
theories/TestBool.v
theories/TestCancel.v
theories/TestRead.v
theories/TestClass.v
theories/TestIo.v
theories/TestWrite.v
theories/TestOut.v
theories/TestNum.v
theories/TestRecBool.v
theories/TestOverlap.v
theories/TestUtil.v
theories/TestValid.v
theories/TestPair.v
theories/TestRev.v
theories/TestElem.v
theories/TestMisc.v
