-Q theories Verif
theories/Base.v
theories/TextModel.v
theories/NameModel.v
theories/ConfigModel.v
theories/Dom.v
theories/DomOps.v
theories/NsModel.v
theories/Display.v
theories/Parser.v
theories/History.v
theories/SpecText.v
theories/ProofText.v
theories/ProofAttr.v
theories/PropText.v
theories/SpecName.v
theories/ProofName.v
theories/PropName.v
theories/SpecData.v
theories/ProofData.v
theories/PropData.v
theories/ProofInv.v
theories/ProofSteps.v
theories/ProofOps.v
theories/SpecTree.v
theories/ProofTree.v
theories/ProofInsert.v
theories/PropTree.v
theories/PropInsert.v
theories/PropSplit.v
theories/PropFactory.v
theories/ProofElem.v
theories/PropElem.v
theories/SpecWalk.v
theories/ProofWalk.v
theories/PropWalk.v
theories/PropClone.v
theories/SpecNorm.v
theories/PropNorm.v
theories/SpecNs.v
theories/PropNs.v
theories/SpecShow.v
theories/ProofRead.v
theories/ProofShow.v
theories/PropShow.v
theories/SpecParse.v
theories/ProofParse.v
theories/ProofReader.v
theories/PropParse.v
theories/ProofCut.v
theories/PropCut.v
theories/PropDrop.v
theories/PropLoop.v
theories/PropAttr.v
theories/SpecChars.v
theories/PropChars.v
theories/SpecEntity.v
theories/PropEntity.v
theories/SpecFrame.v
theories/ProofFrame.v
theories/PropFrame.v
theories/SpecErr.v
theories/ProofErr.v
theories/PropErr.v
theories/Access.v
theories/SpecAccess.v
theories/PropAccess.v
theories/SpecPanic.v
theories/ProofPanic.v
theories/PropPanic.v
theories/PropPanicRead.v
theories/SpecGetters.v
theories/PropGetters.v
theories/PropSmall.v
theories/PropEnv.v
theories/SpecMem.v
theories/PropMem.v
theories/SpecRound.v
theories/PropRound.v
theories/SpecWild.v
theories/ProofWildInv.v
theories/ProofWildSteps.v
theories/ProofWildOps.v
theories/PropWild.v
theories/Borrow.v
theories/SpecBorrow.v
theories/ProofBorrow.v
theories/PropBorrow.v
theories/SpecIso.v
theories/ProofIso.v
theories/ProofFuel.v
theories/ProofIsoOps.v
theories/ProofIsoExec.v
theories/ProofIsoRun.v
theories/PropIso.v
theories/BorrowAsk.v
theories/SpecGuard.v
theories/ProofGuard.v
theories/ProofGuardAsk.v
theories/ProofGuardPart.v
theories/PropGuard.v
theories/CodeModel.v
theories/PropCodes.v
theories/RcModel.v
theories/SpecRc.v
theories/PropRc.v
theories/SpecTypes.v
theories/ProofTypes.v
theories/PropTypes.v
theories/SpecUndo.v
theories/ProofUndo.v
theories/PropUndo.v
theories/SpecGen.v
theories/PropGen.v
theories/SpecStream.v
theories/ProofStream.v
theories/PropStream.v
theories/SpecEdit.v
theories/ProofEdit.v
theories/PropEdit.v
theories/ProofEditAttr.v
theories/PropEditAttr.v
theories/PropEditMore.v
theories/ProofEditValue.v
