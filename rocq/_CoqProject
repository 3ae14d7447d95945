-Q theories Verif
theories/Chars.v
theories/Regex.v
theories/Token.v
theories/Cst.v
theories/Core.v
theories/MiniRust.v
theories/Program.v
theories/Lexer.v
theories/Api.v
theories/ConformanceBase.v
theories/Conformance_core.v
theories/Conformance_dcl.v
theories/Conformance_ddl.v
theories/Conformance_debug.v
theories/Conformance_dml.v
theories/Conformance_lexer.v
theories/Conformance_ml.v
theories/Conformance_other.v
theories/Conformance_pipe.v
theories/Conformance_script.v
theories/Conformance_select.v
theories/LexSpec.v
theories/LexFun.v
theories/LexProofs.v
theories/LexGrammar.v
theories/LexTheorems.v
theories/LexProps.v
theories/LexInvariance.v
theories/LexClasses.v
theories/Properties_Lexer.v
theories/Bundles.v
theories/ParserView.v
theories/ParserGeneric.v
theories/ParserSpec.v
theories/ParserSim.v
theories/ParserInvariance.v
theories/TermCheck.v
theories/Typing.v
theories/ParserTotal.v
theories/RenameSpec.v
theories/RenameTheorems.v
theories/Properties_Rename.v
theories/Properties_Findings.v
theories/TreeSpec.v
theories/AbsInt.v
theories/NodeIndex.v
theories/Shape.v
theories/ShapeSound.v
theories/ShapeTable.v
theories/ShapeCheck.v
theories/ShapeParse.v
theories/TreeTheorems.v
theories/Properties_Parser.v
theories/Properties_Tree.v
theories/TypesSchema.v
theories/TypesSpec.v
theories/TypesTheorems.v
theories/TypesDeviations.v
theories/TypesKnown.v
theories/Properties_Types.v
theories/RolesSpec.v
theories/RolesTexts.v
theories/RolesTheorems.v
theories/Properties_Roles.v
theories/RenderSpec.v
theories/RenderProofs.v
theories/RenderTheorems.v
theories/Properties_Render.v
theories/GroupingSpec.v
theories/GroupingDomain.v
theories/GroupingSound.v
theories/GroupingExpr.v
theories/Properties_Grouping.v
theories/Forward.v
theories/GrammarSpec.v
theories/GrammarTactics.v
theories/GrammarExpr.v
theories/GrammarReach.v
theories/GrammarOps.v
theories/GrammarBinary.v
theories/GrammarItems.v
theories/GrammarTypes.v
theories/GrammarCalls.v
theories/GrammarQuery.v
theories/GrammarClauses.v
theories/GrammarSelect.v
theories/PipeSpec.v
theories/GrammarScript.v
theories/GroupedCheck.v
theories/DefinitionSpec.v
theories/StatementSpec.v
theories/StatementDeeds.v
theories/StatementPipes.v
theories/StatementDml.v
theories/StatementInsert.v
theories/StatementMerge.v
theories/StatementBlocks.v
theories/StatementProcedure.v
theories/StatementControl.v
theories/DefinitionRules.v
theories/DefinitionPhrases.v
theories/DefinitionTypes.v
theories/DefinitionChanges.v
theories/DefinitionAlter.v
theories/DefinitionCreate.v
theories/DefinitionDeeds.v
theories/StatementScript.v
theories/Properties_Statement.v
theories/Properties_Definition.v
theories/Properties_Pipe.v
theories/Properties_Grammar.v
