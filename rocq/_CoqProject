-Q theories Verif
theories/Unicode.v
theories/PyStr.v
theories/PyNum.v
theories/PyBase.v
theories/UnicodePrintable.v
theories/PyRepr.v
theories/DecoderTables.v
theories/Decoder.v
theories/Layouts.v
theories/Json.v
theories/Record.v
theories/Api.v
theories/LegTypes.v
theories/SpecLayouts.v
theories/Spec.v
theories/StrFacts.v
theories/FnNum.v
theories/ReadFacts.v
theories/ReadProps.v
theories/ReadProps2.v
theories/ReadProps3.v
theories/SpecNum.v
theories/SpecFloat.v
theories/SpecPyNum.v
theories/SpecRepr.v
theories/NumFacts.v
theories/SpecCodes.v
theories/SpecDecode.v
theories/SpecRecord.v
theories/SpecJson.v
theories/SpecColumns.v
theories/NumProps.v
theories/RoundFacts.v
theories/FloatFacts.v
theories/PyNumProps.v
theories/ReprFacts.v
theories/CodeProps.v
theories/NumFields.v
theories/DecodeProps.v
theories/RecordProps.v
theories/RecordProps2.v
theories/JsonProps.v
theories/ColumnProps.v
theories/SpecLiteral.v
theories/LiteralProps.v
theories/SpecApi.v
theories/ApiProps.v
theories/SpecUtf8.v
theories/Utf8.v
theories/Utf8Props.v
theories/Samples.v
theories/KnownAnswers.v
theories/PySyntax.v
theories/SrcDecoder.v
theories/SrcDefinitions.v
theories/SrcRecord.v
theories/SrcInit.v
theories/Source.v
theories/PyEval.v
theories/SrcFacts.v
theories/SrcDecoderProps1.v
theories/SrcDecoderProps2.v
theories/SrcDecoderProps3.v
theories/SrcDecoderProps4.v
theories/SrcStart.v
theories/SrcClasses.v
theories/SrcCheck.v
theories/SrcAttrs.v
theories/SrcRead.v
theories/SrcMethods.v
theories/SrcSession.v
theories/Properties1.v
theories/Properties2.v
theories/Properties3.v
theories/Properties4.v
theories/Properties5.v
theories/Properties6.v
theories/Properties7.v
theories/Properties8.v
theories/SrcApi.v
theories/SrcApi2.v
theories/Properties9.v
theories/Properties10.v
theories/Properties11.v
theories/SpecNames.v
theories/SpecFields.v
theories/NameProps.v
theories/Properties12.v
theories/PyLex.v
theories/PyGrammar.v
theories/PyParse.v
theories/PyParseSound.v
theories/PyParseComplete.v
theories/PyText.v
theories/SrcText.v
theories/SpecLex.v
theories/LexFacts.v
theories/Properties13.v
theories/Console.v
theories/SpecConsole.v
theories/ConsoleFacts.v
theories/VisibleFacts.v
theories/ConsoleProps.v
theories/Properties14.v
theories/SpecTokens.v
theories/TokenFacts1.v
theories/TokenFacts2.v
theories/TokenFacts3.v
theories/TokenFacts4.v
theories/Properties15.v
theories/SpecEdit.v
theories/EditProps.v
theories/SearchProps.v
theories/SpecChars.v
theories/CharFacts.v
theories/Properties16.v
theories/SpecTell.v
theories/TellProps.v
theories/Properties17.v
theories/SpecAlike.v
theories/AlikeProps.v
theories/Properties18.v
theories/PyHeap.v
theories/HeapRep.v
theories/HeapCheck.v
theories/HeapInv.v
theories/HeapSim.v
theories/HeapCalls.v
theories/HeapMethods.v
theories/HeapEval.v
theories/HeapExec.v
theories/HeapRun.v
theories/HeapWorld.v
theories/Properties19.v
theories/SpecAgain.v
theories/AgainProps.v
theories/Properties20.v
theories/SpecWrite.v
theories/WriteProps.v
theories/Properties21.v
theories/PyCrash.v
theories/CrashProps.v
theories/CrashWorld.v
theories/Properties22.v
theories/ClosedProps.v
theories/ClosedWorld.v
theories/Properties23.v
theories/Properties24.v
theories/Properties25.v
theories/PageProps.v
theories/Properties26.v
theories/Properties27.v
theories/Properties28.v
theories/Properties29.v
theories/Properties30.v
theories/Properties31.v
theories/Properties32.v
theories/Properties33.v
theories/Properties34.v
