-Q theories Verif
theories/MBase.v
theories/MBitBuffer.v
theories/Spec.v
theories/BitsFacts.v
theories/Reader.v
theories/ReaderFacts.v
theories/Rules.v
theories/WriterFacts.v
theories/CodeFacts.v
theories/PropsBits.v
theories/Syntax.v
theories/SyntaxSe.v
theories/MCommon.v
theories/CommonFacts.v
theories/PropsCommon.v
theories/MFraming.v
theories/FramingFacts.v
theories/PropsFraming.v
theories/MSyntaxA.v
theories/SpecA.v
theories/FactsA.v
theories/MProfile.v
theories/SpecProfile.v
theories/Api.v
theories/PropsA.v
theories/MSyntaxB.v
theories/SpecB.v
theories/FactsB.v
theories/FactsRps.v
theories/PropsB.v
theories/MSps.v
theories/SpecSps.v
theories/FactsSps.v
theories/PropsSps.v
theories/MPps.v
theories/SpecPps.v
theories/FactsPps.v
theories/PropsPps.v
theories/MSlice.v
theories/SpecSlice.v
theories/FactsSlice.v
theories/PropsSlice.v
theories/SpecSliceStd.v
theories/PropsSliceStd.v
theories/MSei.v
theories/SpecSei.v
theories/FactsSei.v
theories/PropsSei.v
theories/MNal.v
theories/FactsNal.v
theories/PropsNal.v
theories/MRtp.v
theories/FactsRtp.v
theories/PropsRtp.v
theories/PropsQp.v
theories/FactsTame.v
theories/PropsSafe.v
theories/MDump.v
theories/PropsDump.v
theories/FactsLocal.v
theories/PropsLocal.v
theories/SpecSize.v
theories/FactsGrow.v
theories/PropsGrow.v
theories/PropsRel.v
theories/PropsExact.v
theories/PropsDeviate.v
theories/MText.v
theories/SpecText.v
theories/FactsText.v
theories/PropsText.v
theories/FactsTextDump.v
theories/PropsTextSafe.v
theories/FactsTells.v
theories/FactsFaithA.v
theories/FactsFaithB.v
theories/FactsFaithC.v
theories/FactsFaithD.v
theories/FactsFaithE.v
theories/FactsFaithF.v
theories/PropsFaithful.v
theories/MTool.v
theories/SpecTool.v
theories/FactsTool.v
theories/PropsTool.v
theories/PropsToolB.v
theories/PropsToolC.v
theories/PropsToolD.v
theories/PropsInj.v
theories/PropsWide.v
theories/PropsToolE.v
theories/PropsAp.v
theories/PropsIff.v
theories/MFloat.v
theories/PropsFloat.v
theories/PropsEntry.v
theories/PropsStream.v
theories/PropsDeviateB.v
theories/MGetopt.v
theories/PropsGetopt.v
theories/FactsOutput.v
theories/PropsOutput.v
theories/MProcess.v
theories/PropsProcess.v
theories/PropsProcessB.v
theories/PropsOutputB.v
theories/PropsLoss.v
theories/PropsSame.v
theories/PropsEnd.v
theories/PropsCausal.v
theories/SpecTime.v
theories/FactsTime.v
theories/FactsTimeB.v
theories/PropsTime.v
theories/FactsWidth.v
theories/FactsWidthB.v
theories/FactsWidthC.v
theories/FactsWidthD.v
theories/FactsWidthE.v
theories/FactsWidthF.v
theories/PropsWidth.v
theories/FactsWidthG.v
theories/PropsWidthB.v
theories/PropsQuadratic.v
theories/PropsPlanted.v
theories/MFuzz.v
theories/PropsFuzz.v
theories/PropsPlantedB.v
theories/SpecLimits.v
theories/PropsLimits.v
theories/PropsLimitsB.v
theories/UnitTests.v
