-Q theories Verif
theories/Num.v
theories/NumFacts.v
theories/Except.v
theories/HObj.v
theories/HObjSpec.v
theories/HObjProofs.v
theories/PropHObj.v
theories/Params.v
theories/ParamsSpec.v
theories/ParamsProofs.v
theories/ParamsProofs2.v
theories/ParamsExamples.v
theories/PropParams.v
theories/HierFormulas.v
theories/HierCalc.v
theories/HierSpec.v
theories/HierProofs.v
theories/HierProofs2.v
theories/HierProofs3.v
theories/HierProofs4.v
theories/HierProofs5.v
theories/HierProofs6.v
theories/HierExamples.v
theories/PropHier.v
theories/Dilog.v
theories/LoopFun.v
theories/LoopSpec.v
theories/Taylor.v
theories/LoopWindows.v
theories/LoopProofs.v
theories/LoopProofs2.v
theories/Taylor2.v
theories/LoopProofs3.v
theories/LoopDef.v
theories/LoopSym.v
theories/LoopProofs4.v
theories/PropLoop.v
theories/PV.v
theories/PVSpec.v
theories/PVProofs.v
theories/PVProofs2.v
theories/PVProofs3.v
theories/PVWindows.v
theories/PVProofs4.v
theories/PVProofs5.v
theories/PropPV.v
theories/Thresh.v
theories/ThreshTwo.v
theories/Threshold.v
theories/ThreshViews.v
theories/DerivTac.v
theories/ThreshSpec.v
theories/ThreshProofs.v
theories/ThreshRGE.v
theories/ThreshConv.v
theories/ThreshLimit.v
theories/PropThresh.v
theories/PotSpec.v
theories/PotProofs.v
theories/PropPot.v
theories/PropPot2.v
theories/XtCoef.v
theories/XtIdent.v
theories/XtProofs.v
theories/XtCases.v
theories/PropXt.v
theories/Defined.v
theories/Agree.v
theories/DefCases.v
theories/PropDef.v
theories/Mh2EFT.v
theories/EFTForm.v
theories/EFTSpec.v
theories/EFTProofs.v
theories/EFTRGE.v
theories/PropEFT.v
theories/Linalg.v
theories/Spectrum.v
theories/DSZ.v
theories/Fortran.v
theories/FixedOrder.v
theories/FOSpec.v
theories/FOProofs.v
theories/PropFO.v
theories/PropFO2.v
theories/PropFO3.v
theories/FortProofs.v
theories/FortRelabel.v
theories/PropFort.v
theories/FortRGE.v
theories/PropFortRGE.v
theories/PropMt4.v
theories/LibraryLink.v
theories/PropLink.v
theories/Lock.v
theories/PropLock.v
theories/QInterval.v
theories/ConstBounds.v
theories/ConstSpec.v
theories/ConstNear.v
theories/ConstSeries.v
theories/PropConst.v
theories/DilogSpec.v
theories/DilogProofs.v
theories/DilogExists.v
theories/DilogKernel.v
theories/DilogApprox.v
theories/PropDilog.v
theories/AsymPoly.v
theories/AsymODE.v
theories/AsymNF.v
theories/AsymNFok.v
theories/AsymReif.v
theories/AsymCases.v
theories/LimitSpec.v
theories/PathSpec.v
theories/LimitProofs.v
theories/PropLimit.v
theories/PropLimitH.v
theories/ClausenSpec.v
theories/ClausenExists.v
theories/ClausenData.v
theories/ClausenSeries.v
theories/ClausenSeries2.v
theories/ClausenKernel.v
theories/ClausenApprox.v
theories/PropClausen.v
theories/HierExpr.v
theories/HierH3.v
theories/HierH32q2g.v
theories/HierH3q22g.v
theories/HierH4.v
theories/HierH5.v
theories/HierH5g1.v
theories/HierH6.v
theories/HierH6b.v
theories/HierH6b2qg2.v
theories/HierH6bq22g.v
theories/HierH6bq2g2.v
theories/HierH6g2.v
theories/HierH9.v
theories/HierH9q2.v
theories/HierLib.v
theories/HierPoly.v
theories/HierInp.v
theories/HierNF.v
theories/HierRead.v
theories/HierLit.v
theories/HierOrder.v
theories/HierMono.v
theories/HierCheck.v
theories/HierAgree.v
theories/HierSibling.v
theories/HierProj.v
theories/HierFalse.v
theories/PropHierLib.v
theories/FieldPoly.v
theories/FieldNF.v
theories/ThreshTree.v
theories/ThreshDeep.v
theories/Grading.v
theories/UnitSpec.v
theories/UnitProofs.v
theories/PropUnit.v
theories/UnitFalse.v
theories/UnitRefute.v
theories/PropUnit2.v
theories/MirrorSpec.v
theories/MirrorNF.v
theories/MirrorTab.v
theories/MirrorTab2.v
theories/MirrorProofs.v
theories/MirrorProofs2.v
theories/MirrorProofs3.v
theories/PropMirror.v
theories/WindowNF.v
theories/WindowTab.v
theories/WindowProofs.v
theories/WindowProofs2.v
theories/WindowProofs3.v
theories/PropWindow.v
theories/PropPhi.v
theories/PropPhiNeg.v
theories/PropPhiEq.v
