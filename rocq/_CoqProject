-Q theories Verif
theories/GoStr.v
theories/Outcome.v
theories/Value.v
theories/Schema.v
theories/Time.v
theories/SpecTime.v
theories/TimeFacts.v
theories/PropsTime.v
theories/Scalars.v
theories/Model.v
theories/SpecModel.v
theories/ModelFacts.v
theories/MemberFacts.v
theories/Demo.v
theories/ValidateFacts.v
theories/PropsModel.v
theories/Misc.v
theories/SpecMisc.v
theories/MiscFacts.v
theories/Data.v
theories/SpecData.v
theories/DataFacts.v
theories/PropsMisc.v
theories/Equiv.v
theories/SpecEquiv.v
theories/EquivFacts.v
theories/PropsEquiv.v
theories/InlineEnums.v
theories/SpecInline.v
theories/InlineFacts.v
theories/PropsInline.v
theories/ParserValidate.v
theories/SpecPV.v
theories/PVFacts.v
theories/PropsValidate.v
theories/Scan.v
theories/Parser.v
theories/ScanFacts.v
theories/ParserMono.v
theories/ParserTerm.v
theories/ReadFacts.v
theories/SpecParser.v
theories/Gives.v
theories/FileFacts.v
theories/InvFacts.v
theories/CheckFacts.v
theories/Lex.v
theories/InvNames.v
theories/ParsedFacts.v
theories/PropsParser.v
theories/Generator.v
theories/HttpTrace.v
theories/Java.v
theories/Golang.v
theories/Smithy.v
theories/Graphql.v
theories/SpecGen.v
theories/GenFacts.v
theories/GoFacts.v
theories/SmithyFacts.v
theories/PropsGen.v
theories/GraphqlFacts.v
theories/OpenApi.v
theories/SpecOpenApi.v
theories/OpenApiFacts.v
theories/OpenApiTotal.v
theories/PropsExport.v
theories/Acts.v
theories/SpecText.v
theories/SpecOptions.v
theories/LiteralFacts.v
theories/OptionFacts.v
theories/PositionFacts.v
theories/IncludeFacts.v
theories/PropsText.v
theories/Yields.v
theories/Unparser.v
theories/SpecUnparse.v
theories/UnparseFacts.v
theories/UnparseBlocks.v
theories/UnparseValues.v
theories/UnparseOps.v
theories/UnparseComments.v
theories/UnparseHttp.v
theories/UnparseDoc.v
theories/UnparseLex.v
theories/PropsUnparse.v
theories/OpenApiImport.v
theories/SpecImport.v
theories/ImportFacts.v
theories/ImportRound.v
theories/ImportRead.v
theories/ImportData.v
theories/PropsImport.v
theories/SmithyAst.v
theories/SpecSmithy.v
theories/SmithyWrite.v
theories/SmithyShapes.v
theories/SmithyFinal.v
theories/SmithyTypes.v
theories/SmithyRead.v
theories/SmithyHttp.v
theories/SmithyRound.v
theories/SmithyKept.v
theories/SmithyData.v
theories/SmithyDocs.v
theories/PropsSmithy.v
theories/GraphqlImport.v
theories/SpecGraphql.v
theories/GraphqlRead.v
theories/GraphqlRound.v
theories/GraphqlData.v
theories/PropsGraphql.v
theories/SpecGraphqlText.v
theories/GraphqlTextFacts.v
theories/GraphqlTextExact.v
theories/PropsGraphqlText.v
theories/JsonAst.v
theories/SpecJson.v
theories/JsonFacts.v
theories/JsonData.v
theories/JsonCrash.v
theories/PropsJson.v
theories/Command.v
theories/SpecCommand.v
theories/CommandFacts.v
theories/CommandOpts.v
theories/PropsCommand.v
theories/SpecOpenData.v
theories/ImportFits.v
theories/ImportMeans.v
theories/PropsOpenRead.v
theories/Swagger.v
theories/SpecSwagger.v
theories/SwaggerFacts.v
theories/SwaggerData.v
theories/PropsSwagger.v
theories/Trace.v
theories/SpecTrace.v
theories/TraceFacts.v
theories/TraceText.v
theories/TraceFill.v
theories/PropsTrace.v
theories/PropsTraceCases.v
theories/GoModel.v
theories/SpecGo.v
theories/GoModelFacts.v
theories/GoText.v
theories/GoNames.v
theories/PropsGo.v
theories/SpecGoData.v
theories/GoData.v
theories/PropsGoData.v
theories/GoServer.v
theories/SpecGoServer.v
theories/GoServerFacts.v
theories/GoServerScope.v
theories/PropsGoServer.v
theories/GoClient.v
theories/SpecGoClient.v
theories/GoClientFacts.v
theories/PropsGoClient.v
theories/SpecGoCall.v
theories/GoRoute.v
theories/GoReceive.v
theories/GoCall.v
theories/GoAnswer.v
theories/PropsGoCall.v
theories/PropsGoCarry.v
theories/PropsGoRoute.v
theories/SpecGoLibrary.v
theories/PropsGoLibrary.v
theories/OasExamples.v
theories/SpecOasExamples.v
theories/SprintFacts.v
theories/OasExamplesFacts.v
theories/OasExamplesProofs.v
theories/PropsOasExamples.v
theories/JavaModel.v
theories/SpecJava.v
theories/JavaFacts.v
theories/JavaText.v
theories/JavaAsks.v
theories/JavaFiles.v
theories/SpecJavaNames.v
theories/JavaNames.v
theories/JavaClosed.v
theories/JavaGood.v
theories/JavaParsed.v
theories/PropsJava.v
theories/PropsJavaNames.v
theories/JavaService.v
theories/SpecJavaService.v
theories/JavaServiceFacts.v
theories/JavaAgree.v
theories/PropsJavaService.v
theories/JavaExport.v
theories/SpecJavaExport.v
theories/JavaExportFacts.v
theories/JavaPlaces.v
theories/PropsJavaExport.v
theories/OasValidate.v
theories/SpecOasValidate.v
theories/SpecOpenBack.v
theories/OpenBack.v
theories/PropsOasValidate.v
theories/GoExport.v
theories/SpecGoExport.v
theories/GoExportFacts.v
theories/PropsGoExport.v
theories/OasTake.v
theories/SpecOasTake.v
theories/OasTakeFacts.v
theories/PropsOasTake.v
