(* Generated by tools/node_index.py from all_node_types in Cst.v: node types as numbers, so
   that sets of node types are bit sets. *)
From Verif Require Import Chars Cst.

Definition nt_idx (t : node_type) : N :=
  match t with
  | N_AccessOperator => 0
  | N_AddColumnClause => 1
  | N_AddConstraintClause => 2
  | N_AggregatePipeOperator => 3
  | N_AlterColumnStatement => 4
  | N_AlterBICapacityStatement => 5
  | N_AlterModelStatement => 6
  | N_AlterOrganizationStatement => 7
  | N_AlterTableDropClause => 8
  | N_AlterProjectStatement => 9
  | N_AlterReservationStatement => 10
  | N_AlterSchemaStatement => 11
  | N_AlterTableStatement => 12
  | N_AlterVectorIndexStatement => 13
  | N_AlterViewStatement => 14
  | N_ArrayLiteral => 15
  | N_AssertStatement => 16
  | N_Asterisk => 17
  | N_BasePipeOperator => 18
  | N_BinaryOperator => 19
  | N_BeginStatement => 20
  | N_BetweenOperator => 21
  | N_BooleanLiteral => 22
  | N_BreakContinueStatement => 23
  | N_CallingFunction => 24
  | N_CallingTableFunction => 25
  | N_CallingUnnest => 26
  | N_CallStatement => 27
  | N_Constraint => 28
  | N_CaseExpr => 29
  | N_CaseExprArm => 30
  | N_CaseStatement => 31
  | N_CaseStatementArm => 32
  | N_CastArgument => 33
  | N_CreateFunctionStatement => 34
  | N_CreateIndexStatement => 35
  | N_CreateModelStatement => 36
  | N_CreateProcedureStatement => 37
  | N_CreateReservationStatement => 38
  | N_CreateRowAccessPolicyStatement => 39
  | N_CreateSchemaStatement => 40
  | N_CreateTableStatement => 41
  | N_CreateViewStatement => 42
  | N_Comment => 43
  | N_DeclareStatement => 44
  | N_DeleteStatement => 45
  | N_DifferentialPrivacyClause => 46
  | N_DotOperator => 47
  | N_DropStatement => 48
  | N_DropRowAccessPolicyStatement => 49
  | N_ElseIfClause => 50
  | N_EOF => 51
  | N_EmptyStruct => 52
  | N_ExecuteStatement => 53
  | N_ExportDataStatement => 54
  | N_ExportModelStatement => 55
  | N_ExtractArgument => 56
  | N_ForSystemTimeAsOfClause => 57
  | N_ForStatement => 58
  | N_FromStatement => 59
  | N_FunctionChain => 60
  | N_GrantStatement => 61
  | N_GroupByExprs => 62
  | N_GroupedIdentWithOptions => 63
  | N_GroupedExpr => 64
  | N_GroupedExprs => 65
  | N_GroupedPattern => 66
  | N_GroupedStatement => 67
  | N_GroupedType => 68
  | N_GroupedTypeDeclarationOrConstraints => 69
  | N_Keyword => 70
  | N_KeywordSequence => 71
  | N_KeywordWithExpr => 72
  | N_KeywordWithExprs => 73
  | N_KeywordWithType => 74
  | N_KeywordWithGroupedXXX => 75
  | N_KeywordWithStatement => 76
  | N_KeywordWithStatements => 77
  | N_Identifier => 78
  | N_IdentWithOptions => 79
  | N_IfStatement => 80
  | N_InsertStatement => 81
  | N_IntervalLiteral => 82
  | N_InOperator => 83
  | N_IsDistinctFromOperator => 84
  | N_JoinOperator => 85
  | N_JoinPipeOperator => 86
  | N_LimitClause => 87
  | N_LimitPipeOperator => 88
  | N_LoadStatement => 89
  | N_LoopStatement => 90
  | N_MatchRecognizeClause => 91
  | N_MatchRecognizeConfig => 92
  | N_MatchRecognizePipeOperator => 93
  | N_MergeStatement => 94
  | N_MultiTokenIdentifier => 95
  | N_NumericLiteral => 96
  | N_NullLiteral => 97
  | N_OrPattern => 98
  | N_OverClause => 99
  | N_OverwritePartitionsClause => 100
  | N_Parameter => 101
  | N_Pattern => 102
  | N_PatternClause => 103
  | N_PatternQuantifier => 104
  | N_PipeStatement => 105
  | N_PivotConfig => 106
  | N_PivotOperator => 107
  | N_PivotPipeOperator => 108
  | N_RaiseStatement => 109
  | N_RangeLiteral => 110
  | N_RenameColumnClause => 111
  | N_RepeatStatement => 112
  | N_RevokeStatement => 113
  | N_SelectPipeOperator => 114
  | N_SelectStatement => 115
  | N_SetOperator => 116
  | N_SetStatement => 117
  | N_SingleTokenStatement => 118
  | N_StringLiteral => 119
  | N_StructLiteral => 120
  | N_Symbol => 121
  | N_TableSampleClause => 122
  | N_TableSamplePipeOperator => 123
  | N_TableSampleRatio => 124
  | N_Template => 125
  | N_TrainingDataCustomHolidayClause => 126
  | N_TransactionStatement => 127
  | N_TruncateStatement => 128
  | N_Type => 129
  | N_TypeDeclaration => 130
  | N_UnaryOperator => 131
  | N_Unknown => 132
  | N_UndropStatement => 133
  | N_UnionPipeOperator => 134
  | N_UnpivotOperator => 135
  | N_UnpivotPipeOperator => 136
  | N_UnpivotConfig => 137
  | N_UpdateStatement => 138
  | N_WhenClause => 139
  | N_WhileStatement => 140
  | N_WindowClause => 141
  | N_WindowExpr => 142
  | N_WindowFrameClause => 143
  | N_WindowSpecification => 144
  | N_WithClause => 145
  | N_WithOffsetClause => 146
  | N_WithPipeOperator => 147
  | N_WithPartitionColumnsClause => 148
  | N_WithQuery => 149
  | N_XXXByExprs => 150
  end%N.

Lemma nt_idx_nth t : List.nth_error all_node_types (N.to_nat (nt_idx t)) = Some t.
Proof. destruct t; vm_compute; reflexivity. Qed.
Lemma nt_idx_inj a b : nt_idx a = nt_idx b -> a = b.
Proof. intro H. pose proof (nt_idx_nth a) as A. rewrite H, nt_idx_nth in A. congruence. Qed.
Lemma all_node_types_complete t : List.In t all_node_types.
Proof. eapply List.nth_error_In, nt_idx_nth. Qed.
