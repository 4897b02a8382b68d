-Q theories Verif

theories/Py.v
theories/Num.v
theories/ModelKnots.v
theories/ModelBasis.v
theories/ModelCurve.v
theories/ModelSurface.v
theories/ModelInit.v
theories/ModelParam.v
theories/ModelFit.v
theories/PyLemmas.v
theories/Spec.v
theories/MathCox.v
theories/MathKnots.v
theories/MathBoehm.v
theories/MathDeriv.v
theories/Examples.v
theories/ProofNum.v
theories/ProofSpan.v
theories/ProofBasis.v
theories/ProofSpanX.v
theories/ProofSpan2.v
theories/ProofBasis2.v
theories/ProofKnots.v
theories/ProofOneBasis.v
theories/ProofDers.v
theories/ProofOneDers.v
theories/ProofDers2.v
theories/PropSpan.v
theories/PropBasis.v
theories/PropKnots.v
theories/PropDers.v
theories/ProofInsert.v
theories/ProofInsert2.v
theories/ProofInsert3.v
theories/PropInsert.v
theories/MathJoin.v
theories/MathSmooth.v
theories/ProofCurve.v
theories/ProofCurve2.v
theories/PropCurve.v
theories/ProofSurface.v
theories/ProofSurface2.v
theories/PropSurface.v
theories/ProofInit.v
theories/PropInit.v
theories/SpecParam.v
theories/ProofParam.v
theories/ProofParam2.v
theories/ProofParam3.v
theories/ProofParam4.v
theories/ProofParam5.v
theories/ProofParam6.v
theories/MathLinear.v
theories/ProofLinear.v
theories/ProofFit9.v
theories/ProofData6.v
theories/ProofData7.v
theories/PropParam.v
theories/SpecFit.v
theories/ProofFit.v
theories/ProofFit2.v
theories/ProofFit3.v
theories/ProofFit4.v
theories/ProofFit5.v
theories/ProofFit6.v
theories/ProofFit7.v
theories/ProofFit8.v
theories/PropFit.v
theories/ModelIO.v
theories/SpecIO.v
theories/ProofIO.v
theories/ProofIO2.v
theories/ProofIO3.v
theories/ProofIO4.v
theories/PropIO.v
theories/ModelData.v
theories/ModelRef.v
theories/SpecRef.v
theories/SpecData.v
theories/ProofData.v
theories/ProofData2.v
theories/ProofData3.v
theories/ProofData4.v
theories/ProofData5.v
theories/ProofIO5.v
theories/ProofData8.v
theories/ProofData9.v
theories/PropData.v
theories/PropOutcome.v
theories/RepoTests.v
theories/ModelImport.v
theories/SpecImport.v
theories/ProofImport.v
theories/ProofImport2.v
theories/ProofImport3.v
theories/ProofImport4.v
theories/ProofImport5.v
theories/PropImport.v
theories/ModelNested.v
theories/ProofNested.v
theories/PropNested.v
theories/SpecNewton.v
theories/ProofParam7.v
theories/ProofParam8.v
theories/PropNewton.v
theories/SpecB64.v
theories/ProofB64.v
theories/ProofB64Basis.v
theories/ProofB64Span.v
theories/ProofB64Curve.v
theories/ProofB64Surface.v
theories/ProofB64Knots.v
theories/ProofB64Unit.v
theories/ProofB64Uniform.v
theories/ProofB64Sum.v
theories/ProofB64Norm.v
theories/ProofB64Param.v
theories/ProofB64Guess.v
theories/ProofB64Sort.v
theories/ProofB64Outcome.v
theories/ProofB64Vtk.v
theories/ProofB64Half.v
theories/ProofB64Insert.v
theories/ProofB64Insert2.v
theories/ProofB64Init.v
theories/ProofB64Init2.v
theories/ProofB64Init3.v
theories/ProofB64One.v
theories/ProofB64One2.v
theories/ProofB64One3.v
theories/ProofB64Unity.v
theories/ProofB64Unity2.v
theories/ProofB64Unity3.v
theories/ProofB64Adapt.v
theories/ProofB64Ends.v
theories/ProofB64Fit.v
theories/ProofB64Edges.v
theories/PropB64.v
theories/PropB64Param.v
theories/PropB64Vtk.v
theories/PropB64Insert.v
theories/PropB64Init.v
theories/PropB64One.v
theories/PropB64Adapt.v
theories/ProofB64Interior.v
theories/PropB64Interior.v
theories/ProofDersAny.v
theories/ProofB64Ders.v
theories/ProofB64Ders2.v
theories/ProofB64Ders3.v
theories/ProofB64Ders4.v
theories/ProofRef.v
theories/ProofRef2.v
theories/ProofRef3.v
theories/ProofRef4.v
theories/ProofRef5.v
theories/ProofRef6.v
theories/PropB64Ders.v
theories/PropRef.v
theories/SpecSmooth.v
theories/ProofSmooth.v
theories/ProofSmooth2.v
theories/ProofSmooth3.v
theories/ProofSmooth4.v
theories/ProofSmooth5.v
theories/ProofSmooth6.v
theories/ProofSmooth7.v
theories/ProofSmooth8.v
theories/ProofSmooth9.v
theories/PropSmooth.v
theories/SpecShape.v
theories/MathShape.v
theories/ProofShape.v
theories/ProofShape2.v
theories/ProofShape3.v
theories/ProofShape4.v
theories/ProofShape5.v
theories/PropShape.v
theories/SpecDot.v
theories/ModelDot.v
theories/ProofDot.v
theories/ProofDot2.v
theories/ProofDot3.v
theories/ProofDot4.v
theories/ProofDot5.v
theories/PropDot.v
theories/SpecConv.v
theories/ProofConv.v
theories/ProofConv2.v
theories/ProofConv3.v
theories/ProofConv4.v
theories/ProofConv5.v
theories/PropConv.v
theories/SpecWhole.v
theories/ProofWhole.v
theories/ProofWhole2.v
theories/ProofWhole3.v
theories/PropWhole.v
theories/SpecSpecial.v
theories/ProofSpecial.v
theories/PropSpecial.v
theories/ModelFloat.v
theories/SpecFloatText.v
theories/ProofFloat.v
theories/ProofFloat2.v
theories/ProofFloat3.v
theories/ProofFloat4.v
theories/PropFloat.v
theories/SpecOrder.v
theories/ProofOrder.v
theories/ProofOrder2.v
theories/ProofOrder3.v
theories/PropOrder.v
theories/SpecDotParam.v
theories/ModelDotParam.v
theories/ProofDotParam.v
theories/ProofDotParam2.v
theories/ProofDotParam3.v
theories/ProofDotParam4.v
theories/PropDotParam.v
theories/ProofUnitRow.v
theories/ProofUnitRow2.v
theories/ProofUnitRow3.v
theories/ProofUnitRow4.v
theories/PropUnitRow.v
theories/ModelDotUnit.v
theories/ProofUnitDot.v
theories/ProofUnitDot2.v
theories/ProofUnitDot3.v
theories/PropUnitDot.v
theories/ModelDotFit.v
theories/ProofDotFit.v
theories/ProofDotFit2.v
theories/PropDotFit.v
