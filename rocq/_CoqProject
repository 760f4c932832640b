-Q theories Verif
theories/Base.v
theories/Mem.v
theories/Spec.v
theories/SpecReal.v
theories/ModelCore.v
theories/ModelBasic.v
theories/ModelMath.v
theories/Logic.v
theories/ProofCore.v
theories/ProofCore2.v
theories/ProofKernel.v
theories/ProofBasic.v
theories/ProofIndex.v
theories/ProofLayout.v
theories/ProofBroadcast.v
theories/Fixture.v
theories/ProofCore3.v
theories/RefuteCore.v
theories/PropCore.v
theories/ProofBasic2.v
theories/PropBasic.v
theories/ProofSqueeze.v
theories/ProofFloat.v
theories/ProofKernel2.v
theories/ProofSlice.v
theories/ProofFloat2.v
theories/ProofCast.v
theories/RefuteBasic.v
theories/PropBasic2.v
theories/ProofFrame.v
theories/ProofMath.v
theories/ProofFloat3.v
theories/ProofSqrt.v
theories/RefuteMath.v
theories/PropMath.v
theories/ProofMatmul.v
theories/ProofMatmul2.v
theories/ProofMatmul3.v
theories/RefuteMath2.v
theories/PropMath2.v
theories/ProofDot.v
theories/ProofDot2.v
theories/ProofDot3.v
theories/ProofDot4.v
theories/ProofDot5.v
theories/ProofDot6.v
theories/RefuteDot.v
theories/PropDot.v
theories/ModelNN.v
theories/SpecNN.v
theories/ProofFloat4.v
theories/ProofNN.v
theories/ProofDropout.v
theories/ProofSoftmax.v
theories/RefuteNN.v
theories/PropNN.v
theories/ProofFloat5.v
theories/ProofWindow.v
theories/ProofPool.v
theories/ProofPool2.v
theories/ProofPool3.v
theories/ProofTerm.v
theories/RefutePool.v
theories/PropPool.v
theories/SpecConv.v
theories/ProofConvWin.v
theories/ProofConv.v
theories/ProofConv2.v
theories/RefuteConv.v
theories/PropConv.v
theories/SpecNorm.v
theories/ProofOwn.v
theories/ProofNorm.v
theories/ProofNorm2.v
theories/ProofNorm3.v
theories/ProofNorm4.v
theories/ProofNorm5.v
theories/ProofNorm6.v
theories/RefuteNorm.v
theories/PropNorm.v
theories/SpecNorm2.v
theories/ProofNorm7.v
theories/ProofNorm8.v
theories/ProofNorm9.v
theories/ProofNorm10.v
theories/ProofNorm11.v
theories/PropNorm2.v
theories/ProofTrace.v
theories/ProofTrace2.v
theories/ProofTrace3.v
theories/ProofTrace4.v
theories/ProofTrace5.v
theories/ProofTrace6.v
theories/SpecHeap.v
theories/ProofHeap.v
theories/PropHeap.v
theories/SpecHist.v
theories/ProofHist.v
theories/ProofHook.v
theories/RefuteHist.v
theories/PropHist.v
theories/ProofQuiet.v
theories/SpecProg.v
theories/ProofProg.v
theories/ExampleProg.v
theories/PropProg.v
theories/ProofLaws.v
theories/PropLaws.v
theories/SpecUnknown.v
theories/ProofUnknown.v
theories/ProofUnknown2.v
theories/ProofUnknown3.v
theories/ProofUnknown4.v
theories/PropUnknown.v
theories/ModelSample.v
theories/SpecSample.v
theories/ProofSample.v
theories/ProofSample2.v
theories/ProofSample3.v
theories/ProofSample4.v
theories/ProofSample5.v
theories/RefuteSample.v
theories/ExampleSample.v
theories/PropSample.v
theories/SpecFault.v
theories/ProofFault.v
theories/ProofFault2.v
theories/RefuteFault.v
theories/PropFault.v
theories/RefuteFault2.v
theories/PropFault2.v
theories/SpecError.v
theories/ProofError.v
theories/ProofError2.v
theories/PropError.v
theories/SpecSoft.v
theories/ProofSoft.v
theories/ProofSoft2.v
theories/PropSoft.v
theories/SpecExp.v
theories/ProofExp.v
theories/ProofExp2.v
theories/ProofExp3.v
theories/ProofExp4.v
theories/PropExp.v
theories/SpecExact.v
theories/ProofRoot.v
theories/ProofExact.v
theories/SpecLeak.v
theories/ProofLeak.v
theories/PropExact.v
theories/ModelAuto.v
theories/SpecAuto.v
theories/ProofAuto.v
theories/ProofAuto2.v
theories/ProofAuto3.v
theories/PropAuto.v
theories/ModelAuto2.v
theories/SpecAuto2.v
theories/ProofAuto4.v
theories/PropAuto2.v
theories/SpecAcc.v
theories/ProofAcc.v
theories/ProofAcc2.v
theories/ProofAcc3.v
theories/PropAcc.v
theories/ModelConvInput.v
theories/SpecConvInput.v
theories/ProofConvInput.v
theories/ProofConvInput2.v
theories/ExampleConvInput.v
theories/PropConvInput.v
theories/SpecScale.v
theories/ProofScale.v
theories/PropScale.v
theories/SpecSlice.v
theories/ProofSlice2.v
theories/ProofDup.v
theories/PropSlice.v
theories/SpecProduct.v
theories/ProofProduct.v
theories/PropProduct.v
theories/ProofTerm2.v
theories/PropTerm.v
theories/SpecSqueeze.v
theories/ProofSqueeze2.v
theories/ProofEvery.v
theories/PropEvery.v
theories/ModelAuto3.v
theories/ProofAuto5.v
theories/ProofAuto6.v
theories/PropAuto3.v
theories/SpecBatch.v
theories/ProofBatch.v
theories/PropBatch.v
theories/SpecDot.v
theories/ProofDot7.v
theories/PropDot2.v
theories/SpecCreate.v
theories/ProofCreate.v
theories/PropCreate.v
theories/ProofSoftmax2.v
theories/ProofSoftmax3.v
theories/SpecSoftInt.v
theories/ProofSoftInt.v
theories/ProofSoftInt2.v
theories/ProofSoftInt3.v
theories/PropSoftInt.v
theories/ProofPool4.v
theories/PropPool2.v
theories/ProofConv3.v
theories/ProofConv4.v
theories/ProofConv5.v
theories/ProofConv6.v
theories/ProofConv7.v
theories/ProofConv8.v
theories/PropConv2.v
theories/PropConv3.v
theories/SpecDet.v
theories/ProofDet.v
theories/ProofDet2.v
theories/PropDet.v
theories/SpecTypes.v
theories/ProofTypes.v
theories/PropTypes.v
theories/Conform.v
theories/SpecRoot.v
theories/ProofRoot2.v
theories/PropRoot.v
theories/ProofMore.v
theories/ProofHist2.v
theories/PropMore.v
theories/SpecRing.v
theories/ProofRing.v
theories/PropRing.v
theories/SpecUnit.v
theories/ProofUnit.v
theories/ProofUnit2.v
theories/PropUnit.v
theories/SpecNatural.v
theories/ProofNatural.v
theories/PropNatural.v
theories/SpecOrder.v
theories/ProofOrder.v
theories/ProofOrder2.v
theories/ProofOrder3.v
theories/PropOrder.v
theories/ProofAutoLit.v
theories/SpecCommute.v
theories/ProofCommute.v
theories/PropCommute.v
theories/SpecPart.v
theories/ProofPart.v
theories/ProofPart2.v
theories/ProofPart3.v
theories/PropPart.v
theories/ProofSample6.v
theories/PropSample2.v
theories/ProofPoint.v
theories/PropPoint.v
theories/SpecNeg.v
theories/ProofNeg.v
theories/ProofNeg2.v
theories/ProofNeg3.v
theories/ProofNeg4.v
theories/ProofNeg5.v
theories/ProofNeg6.v
theories/PropNeg.v
theories/SpecTransp.v
theories/ProofTransp.v
theories/PropTransp.v
theories/ProofNarrow.v
theories/ProofNarrow2.v
theories/PropNarrow.v
