-Q theories Verif
theories/Base.v
theories/F64.v
theories/F64Spec.v
theories/F64Proofs.v
theories/Ast.v
theories/Lexer.v
theories/LexSpec.v
theories/LexProofs.v
theories/LexMore.v
theories/LexFacts.v
theories/Parser.v
theories/Grammar.v
theories/GrammarMore.v
theories/ParseProofs.v
theories/Printer.v
theories/PrintProofs.v
theories/Positions.v
theories/NumText.v
theories/TextPrinter.v
theories/Names.v
theories/ParseFacts.v
theories/Writer.v
theories/CaseConv.v
theories/RustGen.v
theories/DartGen.v
theories/SwiftGen.v
theories/KotlinGen.v
theories/MainModel.v
theories/GoldenRust.v
theories/GoldenDart.v
theories/GoldenSwift.v
theories/GoldenKotlin.v
theories/Code.v
theories/RustSyntax.v
theories/RustPrint.v
theories/CodeLex.v
theories/RustTree.v
theories/RustLexed.v
theories/RustLexedEnum.v
theories/RustLexedConst.v
theories/RustLexedRpc.v
theories/RustFile.v
theories/RustWf.v
theories/RustRead.v
theories/RunFacts.v
theories/GenFacts.v
theories/GenMoreFacts.v
theories/RustSem.v
theories/Wire.v
theories/RustCodec.v
theories/RustRpc.v
theories/CodecFacts.v
theories/RpcFacts.v
theories/PosFacts.v
theories/PropertiesLex.v
theories/PropertiesParse.v
theories/PropertiesRun.v
theories/PropertiesGen.v
theories/PropertiesGenMore.v
theories/PropertiesCodec.v
theories/PropertiesPos.v
theories/PropertiesRpc.v
theories/DartSyntax.v
theories/DartPrint.v
theories/DartTree.v
theories/DartLexed.v
theories/DartLexedModel.v
theories/DartLexedEnum.v
theories/DartLexedBuf.v
theories/DartLexedRpc.v
theories/DartFile.v
theories/DartWf.v
theories/DartSem.v
theories/DartWire.v
theories/DartRun.v
theories/DartShape.v
theories/DartCodec.v
theories/DartAgree.v
theories/DartFacts.v
theories/PropertiesDart.v
theories/DartRpc.v
theories/DartRpcFacts.v
theories/PropertiesDartRpc.v
theories/DartBuild.v
theories/DartBuildFacts.v
theories/PropertiesDartBuild.v
theories/MainCmd.v
theories/MainFacts.v
theories/PropertiesMain.v
theories/KotlinSyntax.v
theories/KotlinPrint.v
theories/CmdLex.v
theories/FloatShape.v
theories/KotlinTree.v
theories/KotlinFile.v
theories/Defaults.v
theories/Single.v
theories/KotlinSem.v
theories/KotlinCheck.v
theories/KotlinRuns.v
theories/KotlinConsts.v
theories/KotlinFacts.v
theories/PropertiesKotlin.v
theories/SwiftSyntax.v
theories/SwiftPrint.v
theories/SwiftTree.v
theories/SwiftFile.v
theories/SwiftSem.v
theories/SwiftCheck.v
theories/SwiftRuns.v
theories/SwiftConsts.v
theories/SwiftFacts.v
theories/PropertiesSwift.v
theories/RustDefault.v
theories/RustFine.v
theories/RustDefaultRuns.v
theories/DefaultFacts.v
theories/PropertiesDefault.v
theories/ConstSpec.v
theories/RustConst.v
theories/DartConst.v
theories/ConstRuns.v
theories/DartConstRuns.v
theories/ConstFacts.v
theories/PropertiesConst.v
theories/EvolveSpec.v
theories/EvolveRust.v
theories/EvolveDart.v
theories/EvolveFacts.v
theories/PropertiesEvolve.v
theories/EvolveDartFacts.v
theories/PropertiesEvolveDart.v
theories/EvolveRpc.v
theories/EvolveServer.v
theories/EvolveRpcFacts.v
theories/PropertiesEvolveRpc.v
theories/DartStatic.v
theories/DartStaticSpec.v
theories/DartStaticCode.v
theories/DartStaticFacts.v
theories/PropertiesDartStatic.v
theories/RustStatic.v
theories/RustStaticSpec.v
theories/RustStaticCode.v
theories/RustStaticFacts.v
theories/PropertiesRustStatic.v
theories/SameSpec.v
theories/SameFacts.v
theories/PropertiesSame.v
theories/OutSpec.v
theories/OutFacts.v
theories/PropertiesOut.v
theories/RepeatFacts.v
theories/PropertiesRepeat.v
theories/SameDefSpec.v
theories/SameDefFacts.v
theories/PropertiesSameDef.v
theories/Utf8Spec.v
theories/Utf8Facts.v
theories/PropertiesUtf8.v
theories/CaseSpec.v
theories/CaseFacts.v
theories/PropertiesCase.v
theories/StrictSpec.v
theories/StrictFacts.v
theories/PropertiesStrict.v
theories/SameTypesSpec.v
theories/SameTypesFacts.v
theories/PropertiesSameTypes.v
theories/StrictMoreFacts.v
theories/PropertiesStrictMore.v
theories/PathFacts.v
theories/PropertiesPath.v
theories/FieldSpec.v
theories/FieldFacts.v
theories/PropertiesField.v
theories/DeclaredSpec.v
theories/DeclaredFacts.v
theories/PropertiesDeclared.v
theories/WholeSpec.v
theories/WholeFacts.v
theories/PropertiesWhole.v
