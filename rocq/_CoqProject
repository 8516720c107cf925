-Q theories Verif
theories/PyBase.v
theories/PyRegex.v
theories/AeroRegex.v
theories/PyFloat.v
theories/PyTime.v
theories/Utils.v
theories/Base.v
theories/MetarGroups.v
theories/Trend.v
theories/Metar.v
theories/Taf.v
theories/AsDict.v
theories/Stations.v
theories/TestVectors.v
theories/SpecLists.v
theories/ProofLists.v
theories/PropsLists.v
theories/SymRegex.v
theories/SpecNum.v
theories/Rounding.v
theories/ReprFacts.v
theories/FloatFacts.v
theories/SpecGroups.v
theories/ProofGroups.v
theories/ProofGroups2.v
theories/ProofValues.v
theories/ProofValues2.v
theories/ProofValues3.v
theories/PropsGroups.v
theories/SpecRules.v
theories/ProofRules.v
theories/PropsRules.v
theories/SymFirst.v
theories/SpecTime.v
theories/TimeFacts.v
theories/SpecTaf.v
theories/ProofTime.v
theories/ProofTaf.v
theories/PropsTime.v
theories/StrFacts.v
theories/SpecText.v
theories/ProofText.v
theories/PropsText.v
theories/TextFacts.v
theories/ProofSections.v
theories/RegexPaths.v
theories/MergeFacts.v
theories/ProofMerge.v
theories/PropsSections.v
theories/ProofTafText.v
theories/ProofProb.v
theories/SpecWords.v
theories/ProofWords.v
theories/PropsWords.v
theories/GroupShapes.v
theories/ProofSlots.v
theories/SpecMetar.v
theories/Dispatch.v
theories/ProofFields.v
theories/ProofMetar.v
theories/ProofMetarText.v
theories/PropsMetar.v
theories/Captures.v
theories/DigitFacts.v
theories/SpecFailures.v
theories/Outcomes.v
theories/OutTime.v
theories/OutMetar.v
theories/Keeps.v
theories/OutReport.v
theories/OutCalm.v
theories/ProofFailures.v
theories/PropsFailures.v
theories/SpecAbsent.v
theories/ProofAbsent.v
theories/ProofAbsentTaf.v
theories/ProofClock.v
theories/ProofCor.v
theories/ProofSilent.v
theories/PropsAbsent.v
theories/SpecTafReport.v
theories/ProofWx.v
theories/TafShapes.v
theories/ProofTafBody.v
theories/ProofTafChange.v
theories/ProofTafChain.v
theories/ProofTafReport.v
theories/ProofTafHead.v
theories/PropsTaf.v
theories/SpecStation.v
theories/ProofStation.v
theories/PropsStation.v
theories/SpecTafFailures.v
theories/OutTafTime.v
theories/OutTafChange.v
theories/OutTafBody.v
theories/OutTafWords.v
theories/OutTafHead.v
theories/OutTafPlaces.v
theories/OutTaf.v
theories/ProofTafFailures.v
theories/PropsTafFailures.v
theories/SpecTrend.v
theories/ProofTrend.v
theories/ProofTrendCut.v
theories/ProofTrendReport.v
theories/PropsTrend.v
theories/Accessors.v
theories/SpecConv.v
theories/ProofConv.v
theories/PropsConv.v
theories/SpecRange.v
theories/ProofRange.v
theories/ProofRangeReport.v
theories/PropsRange.v
theories/Json.v
theories/SpecJson.v
theories/ProofJson.v
theories/ProofJsonReport.v
theories/PropsJson.v
theories/SpecKept.v
theories/ProofKeptText.v
theories/ProofKept.v
theories/ProofKeptReport.v
theories/ProofKeptMetar.v
theories/ProofKeptTaf.v
theories/PropsKept.v
theories/SpecStr.v
theories/ProofStr.v
theories/ProofStrTaf.v
theories/PropsStr.v
theories/SpecSay.v
theories/ProofSay.v
theories/PropsSay.v
theories/SpecMoment.v
theories/ProofMoment.v
theories/ProofMomentReport.v
theories/PropsMoment.v
theories/SpecDict.v
theories/ProofDict.v
theories/ProofDictReport.v
theories/ProofDictSame.v
theories/PropsDict.v
theories/SpecExact.v
theories/ProofExact.v
theories/PropsExact.v
theories/ProofWhen.v
theories/PropsWhen.v
theories/Queries.v
theories/SpecQueries.v
theories/ProofQueries.v
theories/ProofQueriesReport.v
theories/PropsQueries.v
theories/SpecApart.v
theories/ProofApart.v
theories/PropsApart.v
theories/SpecCounts.v
theories/ProofCounts.v
theories/PropsCounts.v
theories/SpecPrint.v
theories/ProofPrint.v
theories/PropsPrint.v
theories/SpecBare.v
theories/ProofBare.v
theories/PropsBare.v
theories/SpecDated.v
theories/ProofDated.v
theories/ProofDatedTaf.v
theories/PropsDated.v
theories/Messages.v
theories/SpecMessages.v
theories/ProofMessages.v
theories/PropsMessages.v
theories/SpecKind.v
theories/ProofKind.v
theories/PropsKind.v
theories/SpecChain.v
theories/ProofChain.v
theories/PropsChain.v
theories/SpecVision.v
theories/ProofVision.v
theories/PropsVision.v
theories/ProofDefault.v
theories/PropsDefault.v
theories/SpecJoined.v
theories/ProofJoined.v
theories/PropsJoined.v
theories/SpecCavok.v
theories/ProofCavok.v
theories/PropsCavok.v
theories/SpecStationText.v
theories/ProofStationText.v
theories/PropsStationText.v
theories/SpecForeign.v
theories/ProofForeign.v
theories/PropsForeign.v
theories/SpecFused.v
theories/ProofFused.v
theories/PropsFused.v
theories/SpecVerdict.v
theories/ProofVerdict.v
theories/PropsVerdict.v
theories/SpecOrder.v
theories/ProofOrder.v
theories/PropsOrder.v
theories/SpecAlphabet.v
theories/ProofAlphabet.v
theories/PropsAlphabet.v
theories/ProofReparse.v
theories/PropsReparse.v
theories/ProofAccept.v
theories/SpecSpan.v
theories/ProofSpan.v
theories/PropsSpan.v
theories/ProofAcceptTaf.v
theories/ProofLayout.v
theories/PropsLayout.v
theories/DocVectors.v
theories/Setter.v
theories/SpecSetter.v
theories/ProofSetter.v
theories/PropsSetter.v
theories/SpecWork.v
theories/ProofWork.v
theories/ProofWorkText.v
theories/OutWork.v
theories/PropsWork.v
theories/Printing.v
theories/SpecPrinting.v
theories/ProofPrinting.v
theories/PropsPrinting.v
theories/SpecByCode.v
theories/ProofAgree.v
theories/ProofByCode.v
theories/PropsByCode.v
theories/SpecGrammar.v
theories/ProofMeans.v
theories/ProofGrammar.v
theories/ProofGrammarRest.v
theories/PropsGrammar.v
theories/SpecStated.v
theories/ProofStated.v
theories/PropsStated.v
theories/SpecShared.v
theories/ProofShared.v
theories/ProofSharedWords.v
theories/PropsShared.v
theories/ListText.v
theories/SpecPhrase.v
theories/ProofPhrase.v
theories/ProofPhraseTime.v
theories/PropsPhrase.v
theories/SpecBorne.v
theories/ProofBorne.v
theories/PropsBorne.v
theories/SpecClocked.v
theories/ProofClocked.v
theories/ProofClockedTaf.v
theories/PropsClocked.v
theories/SpecRefused.v
theories/ProofRefused.v
theories/PropsRefused.v
theories/SpecRefusedTaf.v
theories/ProofSight.v
theories/ProofRefusedTaf.v
theories/PropsRefusedTaf.v
theories/SpecGiven.v
theories/ProofGiven.v
theories/PropsGiven.v
theories/SpecReplaced.v
theories/ProofReplaced.v
theories/PropsReplaced.v
theories/SpecEnded.v
theories/ProofEnded.v
theories/PropsEnded.v
theories/SpecStored.v
theories/ProofStored.v
theories/PropsStored.v
theories/GroupJson.v
theories/SpecGroupJson.v
theories/ProofGroupJson.v
theories/PropsGroupJson.v
theories/ErrorText.v
theories/SpecErrorText.v
theories/ProofErrorText.v
theories/PropsErrorText.v
theories/SpecTable.v
theories/ProofTable.v
theories/PropsTable.v
