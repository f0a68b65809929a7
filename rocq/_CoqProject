-Q theories Verif
theories/Base.v
theories/Str.v
theories/F64.v
theories/Chrono.v
theories/Types.v
theories/Util.v
theories/Regex.v
theories/AisMod.v
theories/Vdm.v
theories/Gnss.v
theories/Parser.v
theories/Utf8.v
theories/Display.v
theories/ModelTests.v
theories/SpecText.v
theories/SpecResult.v
theories/StrFacts.v
theories/FrontFacts.v
theories/CallFacts.v
theories/ResultFacts.v
theories/PropFront.v
theories/SpecTime.v
theories/SpecAis.v
theories/BitFacts.v
theories/VdmFacts.v
theories/PropBits.v
theories/LayoutFacts.v
theories/PropAis.v
theories/SpecState.v
theories/SpecGnss.v
theories/StateFacts.v
theories/RunFacts.v
theories/PropState.v
theories/SpecMerge.v
theories/PropStatic.v
theories/PropGsv.v
theories/SpecReal.v
theories/FloatFacts.v
theories/DecimalFacts.v
theories/SpecMeasure.v
theories/PropMeasure.v
theories/SpecFields.v
theories/FieldFacts.v
theories/PropFields.v
theories/SpecCountry.v
theories/PropTables.v
theories/SpecPanic.v
theories/PropPanic.v
theories/SpecEnv.v
theories/PropEnv.v
theories/SpecHist.v
theories/PropHist.v
theories/SpecDisplay.v
theories/PropDisplay.v
theories/SpecRange.v
theories/PropRange.v
theories/PropDoc.v
theories/SpecMix.v
theories/PropMix.v
theories/Equality.v
theories/SpecEq.v
theories/PropEq.v
theories/SpecError.v
theories/PropError.v
theories/ErrorText.v
theories/SpecErrorText.v
theories/PropErrorText.v
theories/PropTexts.v
theories/SpecSame.v
theories/PropSame.v
theories/SpecSameStatic.v
theories/PropSameStatic.v
theories/SpecWait.v
theories/PropWait.v
theories/SpecLine.v
theories/PropLine.v
theories/Log.v
theories/SpecLog.v
theories/PropLog.v
theories/SpecDamage.v
theories/PropDamage.v
theories/SpecMemory.v
theories/PropMemory.v
theories/SpecWriting.v
theories/PropOrder.v
theories/PropWriting.v
theories/SpecUse.v
theories/PropUse.v
theories/SpecTalker.v
theories/PropTalker.v
theories/Cost.v
theories/SpecCost.v
theories/PropCost.v
theories/Default.v
theories/SpecDefault.v
theories/PropDefault.v
theories/SpecAssembly.v
theories/PropAssembly.v
theories/SpecGroups.v
theories/PropGroups.v
theories/SpecPairs.v
theories/PropPairs.v
theories/SpecWhole.v
theories/PropWhole.v
theories/SpecDirect.v
theories/PropDirect.v
theories/SpecStates.v
theories/PropStates.v
theories/SpecComplete.v
theories/CompleteFacts.v
theories/PropComplete.v
theories/SpecExact.v
theories/PropExact.v
theories/PropSent.v
theories/SpecSharp.v
theories/PropSharp.v
theories/SpecFact.v
theories/SpecRegex.v
theories/PropFact.v
theories/PropDocs.v
theories/PropRegex.v
theories/SpecUtf8.v
theories/PropUtf8.v
theories/SpecReach.v
theories/PropReach.v
theories/SpecMoment.v
theories/PropMoment.v
theories/SpecLocal.v
theories/PropLocal.v
theories/SpecColumns.v
theories/PropColumns.v
theories/SpecMirror.v
theories/PropMirror.v
theories/SpecSender.v
theories/PropSender.v
theories/PropSenderGsv.v
theories/Cases1.v
theories/Cases2.v
theories/Cases3.v
theories/Cases4.v
theories/PropStamps.v
theories/SpecSpot.v
theories/PropSpot.v
theories/Cases5.v
theories/SpecBurst.v
theories/PropBurst.v
theories/PropCut.v
theories/PropCost2.v
theories/SpecJournal.v
theories/PropJournal.v
theories/SpecTransponder.v
theories/PropTransponder.v
theories/SpecVoyage.v
theories/PropVoyage.v
theories/PropFleet.v
theories/PropFail.v
