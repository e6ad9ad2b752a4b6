-Q theories Verif
theories/Py.v
theories/LPy.v
theories/MBitField.v
theories/SBits.v
theories/LBits.v
theories/LBitField.v
theories/PBitField.v
theories/MWord.v
theories/SWord.v
theories/LWord.v
theories/PWord.v
theories/MMemory.v
theories/SMemory.v
theories/LMemory.v
theories/PMemory.v
theories/MRegisters.v
theories/SRegisters.v
theories/LRegisters.v
theories/PRegisters.v
theories/LRegHeap.v
theories/SOwn.v
theories/LOwn.v
theories/PRegHeap.v
theories/POwn.v
theories/MInstruction.v
theories/MInstructions.v
theories/SInstruction.v
theories/LInstruction.v
theories/LInstructions.v
theories/PInstructions.v
theories/LSort.v
theories/SListing.v
theories/LListing.v
theories/PListing.v
theories/MCards.v
theories/SCards.v
theories/LCards.v
theories/PCards.v
theories/LDeck.v
theories/PDeck.v
theories/MSymbols.v
theories/SSymbols.v
theories/LSymClass.v
theories/PSymClass.v
theories/LSymBuild.v
theories/PSymBuild.v
theories/LSymQuery.v
theories/PSymQuery.v
theories/MTools.v
theories/STools.v
theories/LGen.v
theories/PGen.v
theories/LTools.v
theories/PTools.v
theories/LToolSym.v
theories/PToolSym.v
theories/LListTool.v
theories/PListTool.v
theories/MDiag.v
theories/SDiag.v
theories/LDiag.v
theories/PDiag.v
theories/MContext.v
theories/SContext.v
theories/LContext.v
theories/PContext.v
theories/LAsm.v
theories/PAsm.v
theories/MProto.v
theories/SProto.v
theories/LProto.v
theories/PProto.v
theories/MVerbose.v
theories/SVerbose.v
theories/LVerbose.v
theories/PVerbose.v
theories/MOptions.v
theories/SOptions.v
theories/LOptions.v
theories/POptions.v
theories/MSymOut.v
theories/SSymOut.v
theories/LSymOut.v
theories/PSymOut.v
theories/SAgain.v
theories/LAgain.v
theories/PAgain.v
theories/MDump.v
theories/SDump.v
theories/LDump.v
theories/PDump.v
theories/LQuiet.v
theories/PQuiet.v
theories/MFloat.v
theories/SRate.v
theories/LRate.v
theories/PRate.v
theories/STranscript.v
theories/LTranscript.v
theories/PTranscript.v
theories/SFound.v
theories/LFound.v
theories/PFound.v
theories/MProcess.v
theories/SProcess.v
theories/LProcess.v
theories/SEnds.v
theories/LEnds.v
theories/PProcess.v
theories/PEnds.v
theories/SFaults.v
theories/LFaults.v
theories/PFaults.v
theories/SOrder.v
theories/LOrder.v
theories/POrder.v
theories/SSource.v
theories/LSource.v
theories/PSource.v
theories/MAttr.v
theories/SAttr.v
theories/LAttr.v
theories/PAttr.v
theories/STextSym.v
theories/LTextSym.v
theories/PTextSym.v
theories/SIdle.v
theories/LIdle.v
theories/PIdle.v
theories/LPlaces.v
theories/PPlaces.v
theories/SLabel.v
theories/LLabel.v
theories/PLabel.v
theories/MRepr.v
theories/SRepr.v
theories/LRepr.v
theories/PRepr.v
theories/LListed.v
theories/PListed.v
theories/SReport.v
theories/LReport.v
theories/PReport.v
theories/SUnread.v
theories/LUnread.v
theories/PUnread.v
theories/MAsmLog.v
theories/SAsmLog.v
theories/LAsmLog.v
theories/PAsmLog.v
theories/SSwap.v
theories/LSwap.v
theories/PSwap.v
theories/MLive.v
theories/SLive.v
theories/LLive.v
theories/PLive.v
theories/MNarrow.v
theories/LNarrow.v
theories/PNarrow.v
theories/SAgree.v
theories/LAgree.v
theories/PAgree.v
theories/LSuggest.v
theories/PSuggest.v
theories/SKey.v
theories/LKey.v
theories/PKey.v
theories/LJoin.v
theories/PJoin.v
theories/SManual.v
theories/LManual.v
theories/PManual.v
theories/STags.v
theories/LTags.v
theories/PTags.v
theories/LTwice.v
theories/PTwice.v
theories/SProgram.v
theories/LProgram.v
theories/PProgram.v
theories/SCounter.v
theories/LCounter.v
theories/PCounter.v
theories/SFlat.v
theories/LFlat.v
theories/PFlat.v
theories/SCodes.v
theories/LCodes.v
theories/PCodes.v
theories/SControl.v
theories/LControl.v
theories/PControl.v
theories/SExact.v
theories/LExact.v
theories/PExact.v
theories/SMisfit.v
theories/LMisfit.v
theories/PMisfit.v
theories/SClash.v
theories/LClash.v
theories/SCursor.v
theories/LCursor.v
theories/PClash.v
theories/PCursor.v
theories/MUnfollow.v
theories/SUnfollow.v
theories/LUnfollow.v
theories/PUnfollow.v
theories/MSpare.v
theories/LSpare.v
theories/PSpare.v
theories/MTuple.v
theories/STuple.v
theories/LTuple.v
theories/PTuple.v
theories/LRuntime.v
theories/MShare.v
theories/SShare.v
theories/LShare.v
theories/PShare.v
theories/SForce.v
theories/LForce.v
theories/PForce.v
theories/SSaid.v
theories/LSaid.v
theories/PSaid.v
theories/SAny.v
theories/LAny.v
theories/PAny.v
theories/SFrame.v
theories/LFrame.v
theories/PFrame.v
theories/SSession.v
theories/LSession.v
theories/PSession.v
theories/MDyn.v
theories/SDyn.v
theories/LDyn.v
theories/PDyn.v
theories/MDynMem.v
theories/SDynMem.v
theories/LDynMem.v
theories/PDynMem.v
theories/MDynReg.v
theories/SDynReg.v
theories/LDynReg.v
theories/PDynReg.v
theories/MDynInstr.v
theories/SDynInstr.v
theories/LDynInstr.v
theories/PDynInstr.v
theories/MDynWord.v
theories/SDynWord.v
theories/LDynWord.v
theories/PDynWord.v
theories/SDynWidth.v
theories/LDynWidth.v
theories/PDynWidth.v
theories/MDynRead.v
theories/LDynRead.v
theories/PDynRead.v
theories/MDynMod.v
theories/LDynMod.v
theories/PDynMod.v
theories/LLate.v
theories/PLate.v
theories/TTests.v
