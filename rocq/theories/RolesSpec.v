(* Generated by tools/roles.py from tools/roles_data.json. Specification of C38: the word that each
   role of a node stands for, the roles whose word the parser does not check, and likewise for the
   node's own word. *)
From Verif Require Import Chars Token Cst.
Local Open Scope string_scope.
Local Open Scope list_scope.

(* the node holds one of these words, in whatever case it is written *)
Definition holds (U : unicode) (ws : list string) (n : node) : Prop :=
  exists t w, n_token n = Some t /\ In w ws /\ to_uppercase U (literal t) = s_ w.

(* the words that a role stands for, whatever node it belongs to *)
Definition words_of_role : list (string * list string) :=
  [("add", ["ADD"]); ("alter_column_stmt", ["ALTER"]); ("and", ["AND"]); ("as", ["AS"]); ("between", ["BETWEEN"]);
   ("by", ["BY"]); ("cascade_or_restrict", ["CASCADE"; "RESTRICT"]); ("clone", ["CLONE"]);
   ("clusterby", ["CLUSTER"]); ("collate", ["COLLATE"]); ("colon", [":"]); ("column", ["COLUMN"]);
   ("column_group", ["("]); ("column_name_list", ["("]); ("column_schema_group", ["("]); ("columns", ["("]);
   ("comma", [","]); ("config", ["("]); ("constraint", ["CONSTRAINT"]);
   ("corresponding", ["CORRESPONDING"; "STRICT"]); ("custom_holiday", ["CUSTOM_HOLIDAY"]); ("data", ["DATA"]);
   ("default", ["DEFAULT"]); ("default_collate", ["DEFAULT"]); ("define", ["DEFINE"]); ("distinct", ["DISTINCT"]);
   ("distinct_or_all", ["ALL"; "DISTINCT"]); ("do", ["DO"]); ("drop", ["DROP"]); ("else", ["ELSE"]);
   ("end", ["END"]); ("enforced", ["ENFORCED"; "NOT"]); ("except", ["EXCEPT"]); ("external", ["EXTERNAL"]);
   ("files", ["FILES"]); ("filter", ["FILTER"]); ("for", ["FOR"]); ("for_system_time_as_of", ["FOR"]);
   ("format", ["FORMAT"]); ("frame", ["RANGE"; "ROWS"]); ("from", ["FROM"]); ("from_files", ["("]);
   ("grant", ["GRANT"]); ("group", ["("]); ("groupby", ["GROUP"]); ("having", ["HAVING"]); ("if_exists", ["IF"]);
   ("immediate", ["IMMEDIATE"]); ("in", ["IN"]); ("in_out", ["IN"; "INOUT"; "OUT"]); ("into", ["INTO"]);
   ("join_type", ["CROSS"; "FULL"; "INNER"; "LEFT"; "RIGHT"]); ("json", ["JSON"]); ("key", ["KEY"]);
   ("language", ["LANGUAGE"]); ("like_or_copy", ["COPY"; "LIKE"]); ("limit", ["LIMIT"]);
   ("match_recognize", ["MATCH_RECOGNIZE"]); ("matched", ["MATCHED"]); ("materialized", ["MATERIALIZED"]);
   ("measures", ["MEASURES"]); ("method", ["CROSS"; "FULL"; "INNER"; "LEFT"; "OUTER"; "RIGHT"]); ("not", ["NOT"]);
   ("offset", ["OFFSET"]); ("on", ["ON"]); ("options", ["OPTIONS"]); ("order", ["ASC"; "DESC"]);
   ("orderby", ["ORDER"]); ("outer", ["OUTER"]); ("output", ["OUTPUT"]); ("over", ["OVER"]);
   ("overwrite", ["OVERWRITE"; "PARTITIONS"]); ("overwrite_partitions", ["PARTITIONS"]);
   ("partitionby", ["PARTITION"]); ("percent", ["PERCENT"; "ROWS"]); ("pivot", ["PIVOT"]);
   ("primarykey", ["PRIMARY"]); ("qualify", ["QUALIFY"]); ("quantifier", ["ALL"; "ANY"; "SOME"]);
   ("query", ["AS"]); ("rbrace", ["}"]); ("recursive", ["RECURSIVE"]); ("references", ["REFERENCES"]);
   ("remote", ["REMOTE"]); ("rename", ["RENAME"]); ("replace", ["REPLACE"]); ("returns", ["RETURNS"]);
   ("rparen", [")"]); ("semicolon", [";"]); ("set", ["SET"]); ("skip_rule", ["AFTER"]);
   ("snapshot", ["SNAPSHOT"]); ("storing", ["STORING"]); ("system", ["SYSTEM"]); ("table", ["TABLE"]);
   ("tablesample", ["TABLESAMPLE"]); ("temp", ["TEMP"; "TEMPORARY"]); ("then", ["THEN"]); ("to", ["TO"]);
   ("training_data", ["TRAINING_DATA"]); ("training_data_custom_holiday", ["AS"]);
   ("transaction", ["TRANSACTION"]); ("transform", ["TRANSFORM"]); ("unpivot", ["UNPIVOT"]); ("until", ["UNTIL"]);
   ("using", ["USING"]); ("where", ["WHERE"]); ("with", ["WITH"]); ("with_connection", ["WITH"]);
   ("with_offset", ["WITH"]); ("with_partition_columns", ["WITH"])].
(* the words of a role at nodes of one type; these come first *)
Definition words_of_role_at : list (node_type * string * list string) :=
  [(N_AccessOperator, "rparen", ["]"]); (N_AddColumnClause, "what", ["COLUMN"]);
   (N_AlterBICapacityStatement, "what", ["BI_CAPACITY"]); (N_AlterColumnStatement, "what", ["COLUMN"]);
   (N_AlterModelStatement, "what", ["MODEL"]); (N_AlterOrganizationStatement, "what", ["ORGANIZATION"]);
   (N_AlterProjectStatement, "what", ["PROJECT"]);
   (N_AlterReservationStatement, "what", ["CAPACITY"; "RESERVATION"]);
   (N_AlterSchemaStatement, "what", ["SCHEMA"]); (N_AlterTableStatement, "what", ["TABLE"]);
   (N_AlterVectorIndexStatement, "what", ["VECTOR"]); (N_AlterViewStatement, "what", ["VIEW"]);
   (N_ArrayLiteral, "rparen", ["]"]); (N_Constraint, "columns", ["("]);
   (N_CreateFunctionStatement, "aggregate", ["AGGREGATE"]); (N_CreateFunctionStatement, "connection", ["WITH"]);
   (N_CreateFunctionStatement, "what", ["FUNCTION"]); (N_CreateIndexStatement, "what", ["SEARCH"; "VECTOR"]);
   (N_CreateModelStatement, "input", ["INPUT"]); (N_CreateModelStatement, "what", ["MODEL"]);
   (N_CreateProcedureStatement, "what", ["PROCEDURE"]); (N_CreateSchemaStatement, "what", ["SCHEMA"]);
   (N_CreateTableStatement, "what", ["TABLE"]); (N_CreateViewStatement, "what", ["VIEW"]);
   (N_DifferentialPrivacyClause, "differential_privacy", ["DIFFERENTIAL_PRIVACY"]);
   (N_ExportModelStatement, "what", ["MODEL"]); (N_GroupedType, "rparen", [">"]);
   (N_GroupedTypeDeclarationOrConstraints, "rparen", [")"; ">"]); (N_JoinOperator, "using", ["("]);
   (N_JoinPipeOperator, "using", ["("]); (N_LoadStatement, "connection", ["CONNECTION"]);
   (N_LoadStatement, "into", ["INTO"; "OVERWRITE"]); (N_MatchRecognizeConfig, "pattern", ["PATTERN"]);
   (N_PatternClause, "pattern", ["("]); (N_SelectPipeOperator, "window", ["WINDOW"]);
   (N_SelectStatement, "differential_privacy", ["WITH"]); (N_SelectStatement, "window", ["WINDOW"]);
   (N_Type, "type_declaration", ["<"]); (N_UndropStatement, "what", ["SCHEMA"])].
Definition stands_for (t : node_type) (k : string) (ws : list string) : Prop :=
  In (t, k, ws) words_of_role_at \/ ((forall ws', ~ In (t, k, ws') words_of_role_at) /\ In (k, ws) words_of_role).

(* the roles that the parser fills without looking at the word *)
Definition unchecked_roles : list (node_type * list string) :=
  [(N_AccessOperator, ["rparen"]); (N_AddColumnClause, ["what"]);
   (N_AlterBICapacityStatement, ["colon"; "options"; "set"; "what"]);
   (N_AlterColumnStatement, ["colon"; "default"; "what"]);
   (N_AlterModelStatement, ["colon"; "options"; "set"; "what"]);
   (N_AlterOrganizationStatement, ["colon"; "options"; "set"; "what"]);
   (N_AlterProjectStatement, ["colon"; "options"; "set"; "what"]);
   (N_AlterReservationStatement, ["colon"; "options"; "set"; "what"]);
   (N_AlterSchemaStatement, ["colon"; "what"]); (N_AlterTableStatement, ["colon"; "what"]);
   (N_AlterVectorIndexStatement, ["colon"; "on"; "what"]);
   (N_AlterViewStatement, ["colon"; "options"; "set"; "what"]); (N_ArrayLiteral, ["rparen"]);
   (N_AssertStatement, ["colon"]); (N_BeginStatement, ["colon"; "then"]); (N_BetweenOperator, ["and"]);
   (N_BreakContinueStatement, ["colon"]); (N_CallStatement, ["colon"]); (N_CallingFunction, ["rparen"]);
   (N_CallingTableFunction, ["rparen"]); (N_CallingUnnest, ["and"; "from"; "rparen"]); (N_CaseExpr, ["end"]);
   (N_CaseExprArm, ["then"]); (N_CaseStatement, ["colon"]); (N_CaseStatementArm, ["then"]);
   (N_Constraint, ["key"]);
   (N_CreateFunctionStatement, ["as"; "colon"; "connection"; "group"; "language"; "what"]);
   (N_CreateIndexStatement, ["colon"; "column_group"; "on"; "what"]); (N_CreateModelStatement, ["colon"; "what"]);
   (N_CreateProcedureStatement, ["colon"; "group"; "what"]); (N_CreateReservationStatement, ["colon"; "json"]);
   (N_CreateRowAccessPolicyStatement, ["colon"; "filter"; "on"; "to"; "using"]);
   (N_CreateSchemaStatement, ["colon"; "what"]); (N_CreateTableStatement, ["colon"; "what"]);
   (N_CreateViewStatement, ["colon"; "what"]); (N_DeclareStatement, ["colon"]);
   (N_DeleteStatement, ["colon"; "where"]); (N_DifferentialPrivacyClause, ["differential_privacy"]);
   (N_DropRowAccessPolicyStatement, ["colon"; "on"]); (N_DropStatement, ["colon"]); (N_ElseIfClause, ["then"]);
   (N_ExecuteStatement, ["colon"; "immediate"]); (N_ExportDataStatement, ["as"; "colon"; "options"]);
   (N_ExportModelStatement, ["colon"; "what"]); (N_ForStatement, ["colon"; "do"; "in"]);
   (N_FromStatement, ["colon"]); (N_GrantStatement, ["colon"; "on"; "to"]); (N_GroupByExprs, ["by"]);
   (N_GroupedExpr, ["rparen"]); (N_GroupedExprs, ["rparen"]); (N_GroupedStatement, ["colon"; "rparen"]);
   (N_GroupedType, ["rparen"]); (N_IfStatement, ["colon"; "then"]); (N_InsertStatement, ["colon"]);
   (N_IsDistinctFromOperator, ["from"]); (N_JoinOperator, ["using"]); (N_JoinPipeOperator, ["using"]);
   (N_KeywordWithGroupedXXX, ["group"]);
   (N_LoadStatement, ["colon"; "data"; "files"; "from"; "from_files"; "into"; "overwrite_partitions"]);
   (N_LoopStatement, ["colon"]); (N_MatchRecognizeClause, ["config"]); (N_MatchRecognizeConfig, ["rparen"]);
   (N_MatchRecognizePipeOperator, ["config"]); (N_MergeStatement, ["colon"; "on"; "using"]);
   (N_PatternClause, ["pattern"]); (N_PatternQuantifier, ["rbrace"]); (N_PipeStatement, ["colon"]);
   (N_PivotConfig, ["for"; "in"; "rparen"]); (N_PivotOperator, ["config"]); (N_PivotPipeOperator, ["config"]);
   (N_RaiseStatement, ["colon"]); (N_RenameColumnClause, ["column"; "to"]); (N_RepeatStatement, ["colon"]);
   (N_RevokeStatement, ["colon"; "from"; "on"]); (N_SelectStatement, ["colon"]);
   (N_SetOperator, ["colon"; "distinct_or_all"]); (N_SetStatement, ["colon"]);
   (N_SingleTokenStatement, ["colon"]); (N_StructLiteral, ["rparen"]); (N_TableSampleClause, ["group"; "system"]);
   (N_TableSamplePipeOperator, ["group"]); (N_TableSampleRatio, ["percent"; "rparen"]);
   (N_TrainingDataCustomHolidayClause, ["custom_holiday"; "rparen"]); (N_TransactionStatement, ["colon"]);
   (N_TruncateStatement, ["colon"; "table"]); (N_UndropStatement, ["colon"; "what"]);
   (N_UnpivotConfig, ["for"; "in"; "rparen"]); (N_UnpivotOperator, ["config"]);
   (N_UnpivotPipeOperator, ["config"]); (N_UpdateStatement, ["colon"; "set"]);
   (N_WhenClause, ["matched"; "then"]); (N_WhileStatement, ["colon"; "do"]); (N_WindowExpr, ["as"]);
   (N_WindowFrameClause, ["and"]); (N_WindowSpecification, ["rparen"]); (N_WithOffsetClause, ["offset"]);
   (N_WithQuery, ["as"]); (N_XXXByExprs, ["by"])].
Definition unchecked (t : node_type) (k : string) : Prop := exists l, In (t, l) unchecked_roles /\ In k l.

(* the word with which nodes of a type are marked *)
Definition own_words : list (node_type * list string) :=
  [(N_AccessOperator, ["["]); (N_AddColumnClause, ["ADD"]); (N_AddConstraintClause, ["ADD"]);
   (N_AggregatePipeOperator, ["AGGREGATE"]); (N_AlterBICapacityStatement, ["ALTER"]);
   (N_AlterColumnStatement, ["ALTER"]); (N_AlterModelStatement, ["ALTER"]);
   (N_AlterOrganizationStatement, ["ALTER"]); (N_AlterProjectStatement, ["ALTER"]);
   (N_AlterReservationStatement, ["ALTER"]); (N_AlterSchemaStatement, ["ALTER"]);
   (N_AlterTableDropClause, ["DROP"]); (N_AlterTableStatement, ["ALTER"]);
   (N_AlterVectorIndexStatement, ["ALTER"]); (N_AlterViewStatement, ["ALTER"]); (N_AssertStatement, ["ASSERT"]);
   (N_BasePipeOperator, ["AS"; "CALL"; "DROP"; "EXTEND"; "ORDER"; "RENAME"; "SET"; "WHERE"]);
   (N_BeginStatement, ["BEGIN"]); (N_BetweenOperator, ["BETWEEN"]);
   (N_BinaryOperator, ["!="; "&"; "*"; "+"; "-"; "/"; "<"; "<<"; "<="; "<>"; "="; "=>"; ">"; ">="; ">>"; "AND"; "IS"; "LIKE"; "OR"; "^"; "|"; "||"]);
   (N_BreakContinueStatement, ["BREAK"; "CONTINUE"; "ITERATE"; "LEAVE"]); (N_CallStatement, ["CALL"]);
   (N_CallingFunction, ["("]); (N_CallingTableFunction, ["("]); (N_CaseExprArm, ["ELSE"; "WHEN"]);
   (N_CaseStatement, ["CASE"]); (N_CaseStatementArm, ["ELSE"; "WHEN"]); (N_CreateFunctionStatement, ["CREATE"]);
   (N_CreateIndexStatement, ["CREATE"]); (N_CreateModelStatement, ["CREATE"]);
   (N_CreateProcedureStatement, ["CREATE"]); (N_CreateReservationStatement, ["CREATE"]);
   (N_CreateRowAccessPolicyStatement, ["CREATE"]); (N_CreateSchemaStatement, ["CREATE"]);
   (N_CreateTableStatement, ["CREATE"]); (N_CreateViewStatement, ["CREATE"]); (N_DeclareStatement, ["DECLARE"]);
   (N_DeleteStatement, ["DELETE"]); (N_DifferentialPrivacyClause, ["WITH"]); (N_DotOperator, ["."]);
   (N_DropRowAccessPolicyStatement, ["DROP"]); (N_DropStatement, ["DROP"]); (N_ElseIfClause, ["ELSEIF"]);
   (N_ExecuteStatement, ["EXECUTE"]); (N_ExportDataStatement, ["EXPORT"]); (N_ExportModelStatement, ["EXPORT"]);
   (N_ForStatement, ["FOR"]); (N_ForSystemTimeAsOfClause, ["FOR"]); (N_FromStatement, ["FROM"]);
   (N_FunctionChain, ["."]); (N_GrantStatement, ["GRANT"]); (N_GroupByExprs, ["GROUP"]);
   (N_GroupedIdentWithOptions, ["("]); (N_GroupedPattern, ["("]); (N_GroupedType, ["<"]); (N_IfStatement, ["IF"]);
   (N_InOperator, ["IN"]); (N_InsertStatement, ["INSERT"]); (N_IsDistinctFromOperator, ["IS"]);
   (N_KeywordWithType, ["RETURNS"]); (N_LimitClause, ["LIMIT"]); (N_LimitPipeOperator, ["LIMIT"]);
   (N_LoadStatement, ["LOAD"]); (N_LoopStatement, ["LOOP"]); (N_MatchRecognizeClause, ["MATCH_RECOGNIZE"]);
   (N_MatchRecognizePipeOperator, ["MATCH_RECOGNIZE"]); (N_MergeStatement, ["MERGE"]); (N_OrPattern, ["|"]);
   (N_OverClause, ["OVER"]); (N_PatternClause, ["PATTERN"]); (N_PatternQuantifier, ["{"]);
   (N_PipeStatement, ["|>"]); (N_PivotOperator, ["PIVOT"]); (N_PivotPipeOperator, ["PIVOT"]);
   (N_RaiseStatement, ["RAISE"]); (N_RenameColumnClause, ["RENAME"]); (N_RepeatStatement, ["REPEAT"]);
   (N_RevokeStatement, ["REVOKE"]); (N_SelectPipeOperator, ["SELECT"]); (N_SetStatement, ["SET"]);
   (N_SingleTokenStatement, ["DELETE"; "RETURN"]); (N_TableSampleClause, ["TABLESAMPLE"]);
   (N_TableSamplePipeOperator, ["TABLESAMPLE"]); (N_TransactionStatement, ["BEGIN"; "COMMIT"; "ROLLBACK"]);
   (N_TruncateStatement, ["TRUNCATE"]); (N_UndropStatement, ["UNDROP"]); (N_UnpivotOperator, ["UNPIVOT"]);
   (N_UnpivotPipeOperator, ["UNPIVOT"]); (N_UpdateStatement, ["UPDATE"]); (N_WhenClause, ["WHEN"]);
   (N_WhileStatement, ["WHILE"]); (N_WindowClause, ["WINDOW"]); (N_WindowFrameClause, ["RANGE"; "ROWS"]);
   (N_WindowSpecification, ["("]); (N_WithClause, ["WITH"]); (N_WithOffsetClause, ["WITH"]);
   (N_WithPartitionColumnsClause, ["WITH"]); (N_WithPipeOperator, ["WITH"]);
   (N_XXXByExprs, ["CLUSTER"; "ORDER"; "PARTITION"])].
(* the same for the types that the parser gives without looking at the word *)
Definition unchecked_own_words : list (node_type * list string) :=
  [(N_ArrayLiteral, ["["]); (N_CallingUnnest, ["("]); (N_CastArgument, ["AS"]);
   (N_Constraint, ["FOREIGN"; "PRIMARY"]); (N_ExtractArgument, ["FROM"]); (N_GroupedExpr, ["("]);
   (N_GroupedExprs, ["("]); (N_GroupedStatement, ["("]); (N_GroupedTypeDeclarationOrConstraints, ["("; "<"]);
   (N_JoinOperator, [","; "JOIN"]); (N_JoinPipeOperator, ["JOIN"]); (N_MatchRecognizeConfig, ["("]);
   (N_OverwritePartitionsClause, ["PARTITIONS"]); (N_PivotConfig, ["("]); (N_SelectStatement, ["SELECT"]);
   (N_SetOperator, ["EXCEPT"; "INTERSECT"; "UNION"]); (N_StructLiteral, ["("]); (N_TableSampleRatio, ["("]);
   (N_TrainingDataCustomHolidayClause, ["("]); (N_UnionPipeOperator, ["EXCEPT"; "INTERSECT"; "UNION"]);
   (N_UnpivotConfig, ["("])].
