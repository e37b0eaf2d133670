-Q theories Verif
theories/Py.v
theories/PyFacts.v
theories/Edit.v
theories/Labels.v
theories/SpecEdit.v
theories/EditProofs.v
theories/SpanProofs.v
theories/SpecLabels.v
theories/LabelProofs.v
theories/EditApiProofs.v
theories/EditWitness.v
theories/PropsEdit.v
theories/Regex.v
theories/Trie.v
theories/Murmur.v
theories/Ops.v
theories/SpecSeg.v
theories/SpecRuns.v
theories/SpecWords.v
theories/SegProofs.v
theories/RegexProofs.v
theories/PatternProofs.v
theories/TrieProofs.v
theories/WordProofs.v
theories/RunsProofs.v
theories/SpecScan.v
theories/SpecOps.v
theories/TouchProofs.v
theories/OpProofs.v
theories/StrOpProofs.v
theories/ScanProofs.v
theories/ListOpProofs.v
theories/TokProofs.v
theories/SpecHash.v
theories/HashProofs.v
theories/AlignProofs.v
theories/OpLaws.v
theories/OpsWitness.v
theories/ClosureProofs.v
theories/Json.v
theories/SpecJson.v
theories/Elements.v
theories/Pipe.v
theories/SpecPipe.v
theories/JsonProofs.v
theories/PipeProofs.v
theories/ObjProofs.v
theories/EqProofs.v
theories/PropsStrOps.v
theories/PropsListOps.v
theories/Concrete.v
theories/TestsOps.v
theories/PipeAlign.v
theories/BertProofs.v
theories/PipeLaws.v
theories/PipeWitness.v
theories/SpecSlice.v
theories/SliceProofs.v
theories/SliceWitness.v
theories/SpecForeign.v
theories/ForeignProofs.v
theories/PropsPipe.v
theories/SpecElements.v
theories/DatumProofs.v
theories/PackProofs.v
theories/ExpandProofs.v
theories/RatioProofs.v
theories/SpecOrdinal.v
theories/OrdinalProofs.v
theories/LearnProofs.v
theories/ElementsLaws.v
theories/SpecRaw.v
theories/RawProofs.v
theories/SpecRound.v
theories/DoubleProofs.v
theories/RatioRound.v
theories/PackErrors.v
theories/ElementsWitness.v
theories/RawWitness.v
theories/PropsRaw.v
theories/RatioWitness.v
theories/PropsElements.v
theories/GroupObj.v
theories/SpecGroup.v
theories/GroupProofs.v
theories/GroupWitness.v
theories/SpanExact.v
theories/PropsGroup.v
theories/JsonAscii.v
theories/SpecJsonAscii.v
theories/JsonAsciiProofs.v
theories/JsonAsciiWitness.v
theories/Factory.v
theories/SpecFactory.v
theories/FactoryProofs.v
theories/PropsMisc.v
theories/BertRef.v
theories/SpecBert.v
theories/BertRefProofs.v
theories/BertWitness.v
theories/PropsBert.v
theories/TestsEdit.v
theories/TestsElements.v
theories/TestsPipe.v
theories/SpecCalls.v
theories/CallProofs.v
theories/CallWitness.v
theories/PropsCalls.v
theories/Custom.v
theories/SpecCustom.v
theories/CustomProofs.v
theories/CustomWitness.v
theories/PropsCustom.v
theories/UserPipe.v
theories/SpecUserPipe.v
theories/UserPipeProofs.v
theories/UserPipeWitness.v
theories/UserOps.v
theories/SpecUserOps.v
theories/UserOpsProofs.v
theories/UserOpsWitness.v
theories/PropsUser.v
theories/TextForms.v
theories/SpecText.v
theories/TestsText.v
theories/TextProofs.v
theories/TextWitness.v
theories/TextDict.v
theories/TextCut.v
theories/PropsText.v
theories/SpecRelabel.v
theories/RelabelProofs.v
theories/RelabelFree.v
theories/RelabelElements.v
theories/RelabelWitness.v
theories/SpecLaws.v
theories/LawsTok.v
theories/LawsProofs.v
theories/LawsText.v
theories/LawsCommute.v
theories/LawsMaps.v
theories/LawsList.v
theories/LawsWitness.v
theories/PropsLaws.v
theories/SpecTrip.v
theories/TripProofs.v
theories/TripWitness.v
theories/PropsTrip.v
theories/SpecGrammar.v
theories/GrammarProofs.v
theories/SpecStored.v
theories/StoredProofs.v
theories/GrammarWitness.v
theories/PropsJson.v
theories/Heap.v
theories/SpecHeap.v
theories/HeapProofs.v
theories/HeapOps.v
theories/HeapWitness.v
theories/PropsHeap.v
theories/DatumHeap.v
theories/SpecDatumHeap.v
theories/DatumHeapProofs.v
theories/DatumHeapCalls.v
theories/DatumHeapWitness.v
theories/PropsDatum.v
theories/SeqHeap.v
theories/SpecSeqHeap.v
theories/SeqAlignProofs.v
theories/SeqHeapProofs.v
theories/SeqHeapWitness.v
theories/PropsSeq.v
theories/PyRe.v
theories/SpecRe.v
theories/ReProofs.v
theories/ReParse.v
theories/ReShape.v
theories/ReWritten.v
theories/ReTexts.v
theories/ReGroups.v
theories/ReReplace.v
theories/ReWitness.v
theories/SpecReGrammar.v
theories/ReGrammar.v
theories/ReGrammarWitness.v
theories/PropsRe.v
theories/DatumText.v
theories/SpecDatumText.v
theories/DatumTextProofs.v
theories/Messages.v
theories/SpecMessages.v
theories/MessageProofs.v
theories/MessageWitness.v
theories/PropsMessages.v
theories/Output.v
theories/SpecOutput.v
theories/OutputProofs.v
theories/OutputWitness.v
theories/PropsOutput.v
theories/SpecAccept.v
theories/AcceptProofs.v
theories/AcceptPipe.v
theories/FixedSize.v
theories/AcceptWitness.v
theories/SpecSize.v
theories/SizeProofs.v
theories/SizePipe.v
theories/SizeWitness.v
theories/PropsAccept.v
theories/SpecSettle.v
theories/SettleSegs.v
theories/SettleOps.v
theories/SettleTable.v
theories/SettlePipe.v
theories/SettleSurvive.v
theories/SettleNumbers.v
theories/SettleCells.v
theories/SettleWitness.v
theories/SettleDatum.v
theories/SettleDatumWitness.v
theories/PropsSettle.v
theories/PropsBack.v
theories/SpecOrder.v
theories/OrderProofs.v
theories/OrderWitness.v
theories/PropsOrder.v
theories/SpecGlue.v
theories/GlueProofs.v
theories/GluePipe.v
theories/GlueReplace.v
theories/GlueWitness.v
theories/GlueReWitness.v
theories/PropsGlue.v
theories/SpecJoin.v
theories/JoinProofs.v
theories/JoinExpand.v
theories/JoinMore.v
theories/JoinWitness.v
theories/PropsJoin.v
theories/Compare.v
theories/SpecCompare.v
theories/CompareProofs.v
theories/CompareWitness.v
theories/PropsCompare.v
theories/SpecReadBack.v
theories/ReadBackProofs.v
theories/ReadBackWitness.v
theories/PropsReadBack.v
theories/SpecLength.v
theories/LengthProofs.v
theories/LengthWitness.v
theories/PropsLength.v
theories/OrdinalAny.v
theories/SpecOrdinalAny.v
theories/OrdinalAnyProofs.v
theories/OrdinalAnyWitness.v
theories/PropsOrdinalAny.v
theories/SpecSame.v
theories/SameProofs.v
theories/SameWitness.v
theories/PropsSame.v
theories/Signature.v
theories/SpecSignature.v
theories/SignatureProofs.v
theories/SignatureWitness.v
theories/PropsSignature.v
theories/SpecVocab.v
theories/VocabProofs.v
theories/VocabWitness.v
theories/PropsVocab.v
theories/SpecReading.v
theories/ReadingProofs.v
theories/ReadingPipe.v
theories/ReadingUser.v
theories/ReadingWitness.v
theories/PropsReading.v
theories/SpecOutcome.v
theories/OutcomeProofs.v
theories/OutcomeList.v
theories/OutcomeWitness.v
theories/PropsOutcome.v
theories/SpecPredict.v
theories/PredictProofs.v
theories/PredictPipe.v
theories/PredictWitness.v
theories/PropsPredict.v
theories/BaseOps.v
theories/SpecBase.v
theories/BaseProofs.v
theories/BasePipe.v
theories/BaseWitness.v
theories/PropsBase.v
theories/SpecCuts.v
theories/CutsProofs.v
theories/CutsPipe.v
theories/CutsWitness.v
theories/PropsCuts.v
theories/ExpandMore.v
theories/SpecMetric.v
theories/RatioMore.v
theories/MetricWitness.v
theories/PropsMetric.v
theories/SpecRawTrip.v
theories/RawTripProofs.v
theories/RawCorpus.v
theories/RawTripWitness.v
theories/PropsRawTrip.v
