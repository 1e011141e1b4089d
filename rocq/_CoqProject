-Q theories Verif
theories/PyStr.v
theories/PyDict.v
theories/PyRepr.v
theories/Model.v
theories/Validate.v
theories/Generator.v
theories/Diff.v
theories/Writer.v
theories/StrFacts.v
theories/SpecHist.v
theories/HistFacts.v
theories/SpecModel.v
theories/ModelFacts.v
theories/SpecValid.v
theories/ValidateFacts.v
theories/PropsModel.v
theories/PropsValidate.v
theories/SpecTql.v
theories/SpecScript.v
theories/NumFacts.v
theories/TqlFacts.v
theories/ScriptFacts.v
theories/CatalogFacts.v
theories/SpecGen.v
theories/GenFacts.v
theories/SpecExact.v
theories/ExactFacts.v
theories/PropsExact.v
theories/CheckFacts.v
theories/SpecApi.v
theories/ApiFacts.v
theories/PropsScript.v
theories/SpecDiff.v
theories/DiffFacts.v
theories/DiffProps.v
theories/AlterFacts.v
theories/DiffDemo.v
theories/PropsDiff.v
theories/Regex.v
theories/Parser.v
theories/Messages.v
theories/MessageSame.v
theories/SpecParse.v
theories/ParseFacts.v
theories/SplitFacts.v
theories/CleanFacts.v
theories/TypeFacts.v
theories/OccFacts.v
theories/FieldFacts.v
theories/SpecParsed.v
theories/ParsedFacts.v
theories/PropsParse.v
theories/SpecRound.v
theories/RoundText.v
theories/RoundLines.v
theories/RoundAlter.v
theories/RoundRel.v
theories/RoundCreate.v
theories/RoundTable.v
theories/RoundFields.v
theories/RoundParse.v
theories/RoundHash.v
theories/RoundDb.v
theories/RoundDemo.v
theories/PropsRound.v
theories/Config.v
theories/SpecConfig.v
theories/ConfigFacts.v
theories/PropsConfig.v
theories/Excel.v
theories/ExcelLeft.v
theories/SpecExcel.v
theories/ExcelFacts.v
theories/ExcelRound.v
theories/ExcelRels.v
theories/ExcelSheets.v
theories/ExcelRows.v
theories/ExcelReuse.v
theories/PropsExcel.v
theories/PropsSheet.v
theories/ExcelMore.v
theories/SpecSheet.v
theories/CreateFacts.v
theories/PropsCreate.v
theories/SpecReview.v
theories/ReviewGraph.v
theories/GraphFacts.v
theories/PathFacts.v
theories/ReachFacts.v
theories/GraphProps.v
theories/PropsGraph.v
theories/Worksheet.v
theories/ReviewData.v
theories/Reviewer.v
theories/ReviewTalk.v
theories/TalkFacts.v
theories/SpecShard.v
theories/ShardFacts.v
theories/PropsShard.v
theories/SpecJoin.v
theories/JoinFacts.v
theories/PropsJoin.v
theories/SpecWsJoin.v
theories/WsJoinFacts.v
theories/PropsWsJoin.v
theories/SpecReviewer.v
theories/PropsReviewer.v
theories/SpecWorksheet.v
theories/PropsWorksheet.v
theories/ExcelTalk.v
theories/ExcelTalkFacts.v
theories/Cli.v
theories/CliReview.v
theories/RenumFacts.v
theories/SpecCli.v
theories/CliFacts.v
theories/PropsCli.v
theories/CliFrame.v
theories/PropsCliFail.v
theories/SpecCliReview.v
theories/CliReviewFacts.v
theories/PropsCliReview.v
theories/SpecTalk.v
theories/PropsTalk.v
theories/SpecTexts.v
theories/TextsFacts.v
theories/ReadsFacts.v
theories/PropsTexts.v
theories/SpecCliDiff.v
theories/PropsCliDiff.v
theories/SpecCliFlow.v
theories/PropsCliFlow.v
theories/PropsCliCase.v
theories/SpecAlter.v
theories/AlterRun.v
theories/AlterOrder.v
theories/AlterMain.v
theories/PropsAlter.v
theories/SpecMessages.v
theories/MessageFacts.v
theories/PropsMessages.v
theories/SilentFacts.v
theories/SpecSilent.v
theories/SpecReport.v
theories/ReportFacts.v
theories/PropsReport.v
theories/SpecMigrate.v
theories/PropsMigrate.v
theories/SpecDialect.v
theories/DialectFacts.v
theories/PropsDialect.v
theories/SpecLayout.v
theories/LayoutFacts.v
theories/PropsLayout.v
theories/SpecAlterDialect.v
theories/AlterDialect.v
theories/PropsAlterDialect.v
theories/SpecDetails.v
theories/DetailFacts.v
theories/PropsDetails.v
theories/Args.v
theories/SpecArgs.v
theories/ArgFacts.v
theories/ArgTools.v
theories/PropsArgs.v
theories/PropsSilent.v
theories/SpecBook.v
theories/BookFacts.v
theories/PropsBook.v
theories/SpecContents.v
theories/ContentsFacts.v
theories/PropsContents.v
theories/PropsClauses.v
theories/SpecLeft.v
theories/LeftFacts.v
theories/SpecAgain.v
theories/AgainFacts.v
theories/PropsAgain.v
theories/ReadStop.v
theories/SpecStop.v
theories/StopFacts.v
theories/PropsStop.v
theories/PropsReplace.v
theories/PropsNoModel.v
theories/Objects.v
theories/SpecObjects.v
theories/ObjectFacts.v
theories/PropsObjects.v
theories/SpecClients.v
theories/ClientFacts.v
theories/PropsClients.v
theories/PropsTemp.v
theories/PropsLeft.v
theories/PropsOnlyRead.v
theories/SpecRerun.v
theories/RerunFacts.v
theories/PropsRerun.v
theories/SpecSound.v
theories/SoundFacts.v
theories/PropsSound.v
theories/PropsBack.v
theories/CasedFacts.v
theories/SettleFacts.v
theories/PropsSettle.v
theories/CasedRun.v
theories/PropsCased.v
theories/PropsVouched.v
theories/PropsReplay.v
theories/SpecFields.v
theories/FieldsExact.v
theories/PropsFields.v
theories/PropsUndo.v
theories/PropsSelfJoin.v
theories/ParserObject.v
theories/PropsParser.v
theories/RepoTests.v
theories/SpecFaults.v
theories/PropsFaults.v
theories/Status.v
theories/SpecStatus.v
theories/PropsStatus.v
theories/PropsStatusReview.v
theories/SpecLetters.v
theories/PropsLetters.v
theories/Debug.v
theories/SpecDebug.v
theories/PropsDebug.v
theories/DebugReview.v
theories/PropsDebugReview.v
theories/SpecLists.v
theories/PropsLists.v
theories/SpecYaml.v
theories/PropsYaml.v
theories/SpecReplace.v
theories/PropsReplace.v
theories/SpecSelect.v
theories/PropsSelect.v
